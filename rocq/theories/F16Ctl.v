(** Low level controller and closed loop (C56, C57). *)
From Coq Require Import String List ZArith Reals Lra Lia Bool.
From Flocq Require Import Core.Core.
From Verif Require Import PyBase Num NumOrdLemmas XReal Float64 XTac Aero Morelli F16 F16Mem SpecF16
  SpecF16Ctl AeroLemmas F16Lemmas F16Lemmas2 F16Props.
Import List ListNotations.
Local Open Scope R_scope.

Section Generic.
  Context {T : Type} {N : Num T} {O : NumOrd T}.

  Lemma sat_range (v lo hi : T) : nisnan lo = false -> nisnan hi = false -> nleb lo hi = true ->
    let r := py_max (py_min v hi) lo in
    nisnan r = nisnan v /\ (nisnan v = false -> nleb lo r = true /\ nleb r hi = true).
  Proof.
    intros Hl Hh Hlh. unfold py_max, py_min. cbn zeta.
    destruct (nisnan v) eqn:Ev.
    - rewrite (nan_ltb_r hi v Ev), (nan_ltb_l v lo Ev). split; [exact Ev|discriminate].
    - destruct (nltb hi v) eqn:E1.
      + assert (E2 : nltb hi lo = false).
        { destruct (nltb hi lo) eqn:E; [|reflexivity].
          rewrite leb_ltb, E in Hlh by assumption. discriminate. }
        rewrite E2. split; [exact Hh|]. intros _. split; [exact Hlh|]. apply leb_refl. exact Hh.
      + destruct (nltb v lo) eqn:E2.
        * split; [exact Hl|]. intros _. split; [apply leb_refl; exact Hl|exact Hlh].
        * split; [exact Ev|]. intros _. split; rewrite leb_ltb by assumption; [rewrite E2|rewrite E1]; reflexivity.
  Qed.

  Definition lims_ok : Prop := Forall (fun lh => nisnan (fst lh) = false /\ nisnan (snd lh) = false /\
    nleb (fst lh) (snd lh) = true) (ctrl_limits (T := T)).

  (** In the limits, or not a number. *)
  Definition limited (lh : T * T) (v : T) : Prop :=
    nisnan v = true \/ (nleb (fst lh) v = true /\ nleb v (snd lh) = true).

  Lemma get_u_deg_limited u_ref st xc ud : lims_ok -> get_u_deg u_ref st = Ok (xc, ud) ->
    Forall2 limited ctrl_limits ud.
  Proof.
    intros HL. unfold get_u_deg.
    destruct (Nat.ltb (length st) 13); [discriminate|]. destruct (Nat.ltb (length st) 16); [discriminate|].
    destruct (Nat.ltb (length u_ref) 4); [discriminate|].
    intros H. apply ok_inj in H. injection H. intros <- _. clear H.
    unfold lims_ok, ctrl_limits in *.
    cbn [K_lqr uequil map combine fst snd].
    repeat match goal with
    | HL : Forall _ (_ :: _) |- _ => apply Forall_cons_iff in HL; destruct HL as [[? [? ?]] HL]
    end.
    cbn [fst snd] in *.
    repeat (apply Forall2_cons || apply Forall2_nil); unfold limited; cbn [fst snd];
    match goal with |- nisnan (py_max (py_min ?v ?hi) ?lo) = true \/ _ =>
      destruct (sat_range v lo hi) as [Hn Hr]; try assumption;
      destruct (nisnan v) eqn:Ev; [left; exact Hn | right; apply Hr; reflexivity]
    end.
  Qed.
End Generic.

Lemma lims_f64 (lm : libm) : @lims_ok f64 (F64 lm).
Proof. unfold lims_ok, ctrl_limits. repeat constructor; vm_compute; reflexivity. Qed.

Lemma lims_xr : @lims_ok xr (XR Fin).
Proof.
  unfold lims_ok, ctrl_limits. repeat constructor; cbn [fst snd]; rewrite ?nZ_fin; cbn;
    apply Rle_bool_true; lra.
Qed.

Local Hint Extern 0 (Num xr) => exact (XR Fin) : typeclass_instances.

Lemma clamp_fin lo hi v : lo <= hi ->
  py_max (py_min (Fin v) (Fin hi)) (Fin lo) = Fin (clamp lo hi v).
Proof.
  intros H. unfold py_max, py_min, clamp. cbn.
  case Rlt_bool_spec; intros H1; cbn; (case Rlt_bool_spec; intros H2); f_equal;
    unfold Rmin; destruct (Rle_dec hi v); unfold Rmax; destruct (Rle_dec _ _); lra.
Qed.

Lemma closed_length x iz ips iny rest :
  length (closed_state x iz ips iny rest) = (16 + length rest)%nat.
Proof. unfold closed_state. rewrite !app_length. reflexivity. Qed.

Lemma get_u_deg_fin x iz ips iny rest u_ref cmd : (4 <= length u_ref)%nat ->
  nth 3 u_ref NaN = Fin cmd ->
  get_u_deg u_ref (closed_state x iz ips iny rest)
  = Ok (map Fin [a_alpha x - 0.0389; a_q x; iz; a_beta x; a_p x; a_r x; ips; iny],
        map Fin [throttle cmd; elevator x iz; aileron x ips iny; rudder x ips iny]).
Proof.
  intros Hl Hu. unfold get_u_deg. rewrite closed_length.
  replace (Nat.ltb (16 + length rest) 13) with false by (symmetry; apply Nat.ltb_ge; lia).
  replace (Nat.ltb (16 + length rest) 16) with false by (symmetry; apply Nat.ltb_ge; lia).
  replace (Nat.ltb (length u_ref) 4) with false by (symmetry; apply Nat.ltb_ge; lia).
  assert (Eu : nth0 u_ref 3 = Fin cmd) by (unfold nth0; rewrite (nth_indep _ _ NaN) by lia; exact Hu).
  rewrite Eu.
  unfold closed_state, state_of, xequil, ctrl_index. cbn [map app firstn skipn combine fst snd].
  unfold nth0. cbn [nth].
  rewrite ?nZ_fin.
  match goal with |- Ok (?c, _) = Ok (?c', _) => assert (Ec : c = c') end.
  { cbn. repeat (apply f_equal2; [f_equal; try lra|]). reflexivity. }
  rewrite Ec.
  apply f_equal, f_equal.
  unfold K_lqr, ldot, uequil, ctrl_limits. cbn [map combine fold_left fst snd].
  rewrite !nZ_fin. cbn [nlit nneg nmul nadd XR n0 Num.n0].
  change (n0 : xr) with (Fin (0 / 1)). cbn [xadd xmul xneg].
  rewrite !clamp_fin by lra.
  unfold throttle, elevator, aileron, rudder.
  repeat (apply f_equal2; [apply f_equal; unfold clamp; f_equal; try lra; f_equal; lra|]).
  reflexivity.
Qed.

(** * Closed loop *)
Section Closed.
  Context {T : Type} {N : Num T}.

  Lemma rest_length (vt p q r qbar t xd12 : T) adj cxt cyt czt clt cmt cnt d
      cbta calf sbta salf sth cth sph cph spsi cpsi tth xd nz ny az ay :
    subf16_rest vt p q r qbar t xd12 adj cxt cyt czt clt cmt cnt d
      cbta calf sbta salf sth cth sph cph spsi cpsi tth = (xd, nz, ny, az, ay) -> length xd = 13%nat.
  Proof. unfold subf16_rest. intros H. injection H. intros _ _ _ _ <-. reflexivity. Qed.

  Lemma subf16_length (x u : list T) model adj xd nz ny az ay :
    subf16_model x u model adj = Ok (xd, nz, ny, az, ay) -> length xd = 13%nat.
  Proof.
    unfold subf16_model.
    repeat match goal with
    | |- bind ?r _ = _ -> _ => destruct r; cbn [bind]; [|discriminate]
    | |- (let '(a, b) := ?p in _) = _ -> _ => destruct p
    | |- (let '(a, b) := ?p in _) _ = _ -> _ => destruct p
    end; cbn zeta;
    repeat match goal with
    | |- bind ?r _ = _ -> _ => destruct r; cbn [bind]; [|discriminate]
    | |- context [let '(a, b) := ?p in _] => destruct p
    end.
    intros H. apply ok_inj in H. eapply rest_length. exact H.
  Qed.

  Lemma controlled_structure (x u : list T) model v2 xd urad nz ps nyr :
    controlled_f16 x u model v2 = Ok (xd, urad, nz, ps, nyr) ->
    exists xc ud xm ny az ay,
      get_u_deg u x = Ok (xc, ud) /\
      subf16_model (firstn 13 x) ud model true = Ok (xm, nz, ny, az, ay) /\
      length xm = 13%nat /\ length x = length xd /\ (16 <= length x)%nat /\ length u = 4%nat /\
      xd = xm ++ [nsub nz (nth0 u 0); nsub ps (nth0 u 1); nsub nyr (nth0 u 2)]
              ++ repeat n0 (length x - 16) /\
      urad = nth0 ud 0 :: map (fun i => deg2rad (nth0 ud i)) [1; 2; 3]%nat ++ firstn 3 u /\
      (if v2 then
         exists c s, m_cos (nth0 xm 1) = Ok c /\ m_sin (nth0 xm 1) = Ok s /\
           ps = nadd (nmul (nth0 xm 6) c) (nmul (nth0 xm 8) s) /\ nyr = nadd ny (nth0 xm 8)
       else
         exists c s, m_cos (nth0 xc 0) = Ok c /\ m_sin (nth0 xc 0) = Ok s /\
           ps = nadd (nmul (nth0 xc 4) c) (nmul (nth0 xc 5) s) /\ nyr = nadd ny (nth0 xc 5)).
  Proof.
    unfold controlled_f16, py_assert. destruct (Nat.eqb (length u) 4) eqn:Eu; cbn [bind]; [|discriminate].
    destruct (known_model model); cbn [bind]; [|discriminate].
    destruct (get_u_deg u x) as [[xc ud]|] eqn:Eg; cbn [bind]; [|discriminate].
    destruct (subf16_model (firstn 13 x) ud model true) as [[[[[xm nz0] ny] az] ay]|] eqn:Es;
      cbn [bind]; [|discriminate].
    assert (Hx : (16 <= length x)%nat).
    { unfold get_u_deg in Eg. destruct (Nat.ltb_spec (length x) 13); [discriminate|].
      destruct (Nat.ltb_spec (length x) 16); [discriminate|]. assumption. }
    assert (Lm := subf16_length _ _ _ _ _ _ _ _ _ Es).
    intros H.
    assert (G : exists ps' nyr', Ok (xm ++ get_integrator_derivatives u nz0 ps' nyr' ++ repeat n0 (length x - 16),
        [nth0 ud 0; deg2rad (nth0 ud 1); deg2rad (nth0 ud 2); deg2rad (nth0 ud 3)] ++ firstn 3 u,
        nz0, ps', nyr') = Ok (xd, urad, nz, ps, nyr) /\
      (if v2 then
         exists c s, m_cos (nth0 xm 1) = Ok c /\ m_sin (nth0 xm 1) = Ok s /\
           ps' = nadd (nmul (nth0 xm 6) c) (nmul (nth0 xm 8) s) /\ nyr' = nadd ny (nth0 xm 8)
       else
         exists c s, m_cos (nth0 xc 0) = Ok c /\ m_sin (nth0 xc 0) = Ok s /\
           ps' = nadd (nmul (nth0 xc 4) c) (nmul (nth0 xc 5) s) /\ nyr' = nadd ny (nth0 xc 5))).
    { destruct v2.
      - destruct (m_cos (nth0 xm 1)) as [c|] eqn:Ec; cbn [bind] in H; [|discriminate].
        destruct (m_sin (nth0 xm 1)) as [s|] eqn:Es'; cbn [bind] in H; [|discriminate].
        do 2 eexists. split; [exact H|]. exists c, s. repeat split.
      - destruct (m_cos (nth0 xc 0)) as [c|] eqn:Ec; cbn [bind] in H; [|discriminate].
        destruct (m_sin (nth0 xc 0)) as [s|] eqn:Es'; cbn [bind] in H; [|discriminate].
        do 2 eexists. split; [exact H|]. exists c, s. repeat split. }
    clear H. destruct G as [ps' [nyr' [H HV]]]. apply ok_inj in H. injection H.
    intros -> -> -> <- <-.
    exists xc, ud, xm, ny, az, ay. split; [reflexivity|]. split; [exact Es|].
    split; [exact Lm|]. split.
    { rewrite app_length, Lm. cbn [get_integrator_derivatives length app].
      rewrite repeat_length. lia. }
    split; [exact Hx|]. split; [apply Nat.eqb_eq; exact Eu|].
    split; [reflexivity|]. split; [reflexivity|]. exact HV.
  Qed.
End Closed.

Lemma closed_split x iz ips iny rest : firstn 13 (closed_state x iz ips iny rest) = state_of x.
Proof. reflexivity. Qed.

Definition ref_of (nz ps ny thr : R) : list xr := map Fin [nz; ps; ny; thr].
Definition ctl (x : airframe) (iz ips iny cmd : R) : surfaces :=
  {| s_thr := throttle cmd; s_el := elevator x iz; s_ail := aileron x ips iny;
     s_rdr := rudder x ips iny |}.

(** The closed loop is defined on finite states, and its roll rate is about an axis at the
    angle of attack measured from trim. *)
Lemma controlled_fin x iz ips iny rest rnz rps rny cmd model :
  known_model model = true -> cos (a_theta x) <> 0 -> a_vt x <> 0 -> cos (a_beta x) <> 0 ->
  a_alt x < 142247 ->
  exists xd nz ny az ay,
    subf16_model (state_of x) (control_of (ctl x iz ips iny cmd)) model true
      = Ok (xd, Fin nz, Fin ny, Fin az, Fin ay) /\
    controlled_f16 (closed_state x iz ips iny rest) (ref_of rnz rps rny cmd) model false
      = Ok (xd ++ map Fin [nz - rnz; stability_roll_rate (a_p x) (a_r x) (a_alpha x - 0.0389) - rps;
                           ny + a_r x - rny] ++ repeat (Fin (0 / 1)) (length rest),
            map Fin [throttle cmd; radians (elevator x iz); radians (aileron x ips iny);
                     radians (rudder x ips iny); rnz; rps; rny],
            Fin nz, Fin (stability_roll_rate (a_p x) (a_r x) (a_alpha x - 0.0389)), Fin (ny + a_r x)).
Proof.
  intros Hm Hct Hv Hcb Ha.
  destruct (f16_equations x (ctl x iz ips iny cmd) model true Hm Hct Hv Hcb Ha)
    as [c1 [c2 [c3 [c4 [c5 [c6 [d [Q [t [xd [nz [ny [zo [yo [v' [a' [b' [fx [fy [fz [p' [q' [r'
       [Hc [He [E _]]]]]]]]]]]]]]]]]]]]]]]]]].
  exists xd, nz, ny, zo, yo. split; [exact E|].
  unfold controlled_f16. cbn [ref_of map length Nat.eqb py_assert bind]. rewrite Hm. cbn [py_assert bind].
  rewrite (get_u_deg_fin x iz ips iny rest _ cmd) by (cbn; lia || reflexivity).
  cbn [bind]. rewrite closed_split.
  change (map Fin [throttle cmd; elevator x iz; aileron x ips iny; rudder x ips iny])
    with (control_of (ctl x iz ips iny cmd)).
  rewrite E. cbn [bind map nth0 nth]. unfold nth0. cbn [nth].
  rewrite m_cos_fin, m_sin_fin. cbn [bind].
  rewrite closed_length. replace (16 + length rest - 16)%nat with (length rest) by lia.
  apply f_equal.
  assert (Ed : forall z, deg2rad (Fin z) = Fin (radians z)).
  { intros z. unfold deg2rad, radians. rewrite nZ_fin.
    change (ndiv npi (Fin 180)) with (ndiv (Fin PI) (Fin 180)). rewrite div_fin by lra. reflexivity. }
  cbn [control_of ctl map s_thr s_el s_ail s_rdr nth]. rewrite !Ed. reflexivity.
Qed.
