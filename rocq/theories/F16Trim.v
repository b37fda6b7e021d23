(** Trim constraints and cost (C67, C79). *)
From Coq Require Import String List ZArith Reals Lra Lia Bool.
From Flocq Require Import Core.Core.
From Coquelicot Require Import Coquelicot.
From Verif Require Import PyBase Num XReal XTac Aero Morelli F16 SpecTables SpecAero SpecF16 SpecTrim
  AeroLemmas AeroLemmas2 AeroLemmas3 AeroProps AeroProps2 AeroProps3 F16Lemmas F16Lemmas2 F16Lemmas3
  F16Props F16Ctl.
Import List ListNotations.
Local Open Scope R_scope.
Local Hint Extern 0 (Num xr) => exact (XR Fin) : typeclass_instances.

Lemma tgear_power t : tgear (Fin t) = Fin (power_of t).
Proof. apply tgear_fin. Qed.

Lemma n0_fin : (n0 : xr) = Fin 0.
Proof. cbn. f_equal. lra. Qed.

Lemma conf16_fin k c x u :
  conf16 (state_of x) (control_of u) (const_of c k)
  = Ok (state_of (constrained k c (s_thr u) x)).
Proof.
  unfold conf16. cbn [k_orient const_of k_phi k_rr k_pr k_tr k_radgam k_thetadot].
  assert (D : k = 1%Z \/ k = 2%Z \/ k = 3%Z \/ k = 4%Z \/
    ((k =? 1)%Z = false /\ (k =? 2)%Z = false /\ (k =? 3)%Z = false /\ (k =? 4)%Z = false /\
     constrained k c (s_thr u) x
     = with_attitude x (a_phi x) (a_theta x) (a_p x) (a_q x) (a_r x) (power_of (s_thr u)))).
  { destruct (Z.eqb_spec k 1); [tauto|]. destruct (Z.eqb_spec k 2); [tauto|].
    destruct (Z.eqb_spec k 3); [tauto|]. destruct (Z.eqb_spec k 4); [tauto|].
    right; right; right; right. repeat (split; [reflexivity|]).
    destruct k as [|[[?|?|]|[?|[?|?|]|]|]|?]; try reflexivity; exfalso; lia. }
  destruct D as [->|[->|[->|[->|[E1 [E2 [E3 [E4 E]]]]]]]]; [cbn [Z.eqb Pos.eqb bind]..|].
  - change (nth0 (control_of u) 0) with (Fin (s_thr u)). rewrite tgear_power, n0_fin. reflexivity.
  - change (nth0 (control_of u) 0) with (Fin (s_thr u)). rewrite tgear_power, n0_fin. reflexivity.
  - cbn [state_of map nth0 nth upd]. unfold nth0. cbn [nth]. rewrite !m_sin_fin, !m_cos_fin. cbn [bind].
    cbn [control_of map nth upd]. rewrite tgear_power.
    unfold constrained, rates_of, state_of. apply f_equal.
    cbn [with_attitude map a_vt a_alpha a_beta a_phi a_theta a_psi a_p a_q a_r a_pn a_pe a_alt a_pow].
    cbn [nmul nneg XR xmul xneg].
    repeat (apply f_equal2; [first [reflexivity | apply f_equal; ring]|]). reflexivity.
  - change (nth0 (control_of u) 0) with (Fin (s_thr u)). rewrite tgear_power, n0_fin. reflexivity.
  - rewrite E1, E2, E3, E4, E. cbn [bind].
    change (nth0 (control_of u) 0) with (Fin (s_thr u)). rewrite tgear_power. reflexivity.
Qed.

(** The whole derivative is finite. *)
Lemma f16_all x u model adj : known_model model = true -> cos (a_theta x) <> 0 ->
  a_vt x <> 0 -> cos (a_beta x) <> 0 -> a_alt x < 142247 ->
  exists d nz ny az ay,
    subf16_model (state_of x) (control_of u) model adj
    = Ok (state_of d, Fin nz, Fin ny, Fin az, Fin ay).
Proof.
  intros Hm Hct Hv Hcb Ha.
  destruct (f16_equations x u model adj Hm Hct Hv Hcb Ha)
    as [c1 [c2 [c3 [c4 [c5 [c6 [dd [Q [t [xd [nz [ny [zo [yo [v' [a' [b' [fx [fy [fz [p' [q' [r'
       [_ [_ [E [L [G0 [G1 [G2 [G6 [G7 [G8 [G12 _]]]]]]]]]]]]]]]]]]]]]]]]]]]]]]]]]].
  destruct (f16_kin x u model adj Hm Hct) as [out [f' [t' [s' [E' [K3 [K4 [K5 _]]]]]]]].
  rewrite E in E'. apply ok_inj in E'. subst out.
  destruct (f16_nav x u model adj Hm Hct) as [out [n [e [h [E' [N1 [N2 [N3 _]]]]]]]].
  rewrite E in E'. apply ok_inj in E'. subst out.
  unfold comp, nth0 in *. rewrite tgear_power, pdot_fin in G12.
  exists {| a_vt := v'; a_alpha := a'; a_beta := b'; a_phi := f'; a_theta := t'; a_psi := s';
            a_p := p'; a_q := q'; a_r := r'; a_pn := n; a_pe := e; a_alt := h;
            a_pow := pdot_r (a_pow x) (power_of (s_thr u)) |}, nz, ny, zo, yo.
  rewrite E.
  do 13 (destruct xd as [|? xd]; [cbn in L; lia|]). destruct xd; [|cbn in L; lia].
  cbn [nth] in *. subst. reflexivity.
Qed.

Lemma penalty_pos l : Forall (fun wr => 0 < fst wr) l -> 0 <= penalty l.
Proof.
  induction 1 as [|[w r] l H _ IH]; [cbn; lra|].
  cbn [fst] in H. change (penalty ((w, r) :: l)) with (w * (r * r) + penalty l).
  assert (0 <= w * (r * r)) by (apply Rmult_le_pos; [lra|nra]). lra.
Qed.
Lemma penalty_zero l : Forall (fun wr => 0 < fst wr) l ->
  (penalty l = 0 <-> Forall (fun wr => snd wr = 0) l).
Proof.
  induction 1 as [|[w r] l H Hl IH].
  - split; [constructor|reflexivity].
  - pose proof (penalty_pos l Hl) as Hp. cbn [fst] in H.
    change (penalty ((w, r) :: l)) with (w * (r * r) + penalty l).
    assert (Hw : 0 <= w * (r * r)) by (apply Rmult_le_pos; [lra|nra]). split; intros E.
    + assert (E1 : w * (r * r) = 0) by lra.
      constructor; [|apply IH; lra].
      cbn. apply Rmult_integral in E1. destruct E1 as [E1|E1]; [lra|]. apply Rmult_integral in E1. tauto.
    + apply Forall_cons_iff in E. destruct E as [E1 E2]. cbn in E1. subst r.
      rewrite (proj2 IH E2). ring.
Qed.
Lemma scaled_pos j : 0 <= j -> 0 <= scaled j /\ (scaled j = 0 <-> j = 0).
Proof.
  intros H. unfold scaled. destruct (Rlt_dec j 1).
  - split; [apply sqrt_pos|]. split; intros E; [apply sqrt_eq_0 in E; lra|subst; apply sqrt_0].
  - split; lra.
Qed.
Lemma weights_pos k c x d : Forall (fun wr => 0 < fst wr) (residuals k c x d).
Proof.
  unfold residuals. destruct k as [|[[?|?|]|[?|[?|?|]|]|]|?]; repeat constructor; cbn; lra.
Qed.

Lemma trim_cost_fin k c x d : (1 <= k <= 4)%Z -> -1 <= q_singamma c <= 1 ->
  trim_cost (const_of c k) (Fin (asin (q_singamma c))) (state_of x) (state_of d)
  = Ok (Fin (penalty (residuals k c x d))).
Proof.
  intros Hk Hs. unfold trim_cost. cbn [k_orient const_of k_tr k_thetadot].
  rewrite m_sin_fin. cbn [bind]. rewrite sin_asin by lra.
  unfold nth0, state_of. cbn [map nth].
  cbn [nsub nmul XR xsub xadd xneg xmul].
  assert (D : k = 1%Z \/ k = 2%Z \/ k = 3%Z \/ k = 4%Z) by lia.
  destruct D as [->|[->|[->| ->]]]; cbn [Z.eqb Pos.eqb residuals penalty fold_right fst snd];
    rewrite ?nZ_fin, ?nipow_fin; cbn [nsub nadd nmul XR xsub xadd xneg xmul]; rewrite ?nipow_fin; cbn [xmul xadd pow];
    apply f_equal, f_equal; ring.
Qed.

Lemma clf16_fin s x u k c model adj :
  let y := constrained k c (s_thr (candidate_surfaces s u)) (candidate_state s x) in
  let v := candidate_surfaces s u in
  (1 <= k <= 4)%Z -> -1 <= q_singamma c <= 1 ->
  known_model model = true -> cos (a_theta y) <> 0 ->
  a_vt y <> 0 -> cos (a_beta y) <> 0 -> a_alt y < 142247 ->
  exists d nz ny az ay,
    subf16_model (state_of y) (control_of v) model adj
    = Ok (state_of d, Fin nz, Fin ny, Fin az, Fin ay) /\
    clf16 (candidate_vec s) (state_of x) (control_of u) (const_of c k) model adj
    = Ok (Fin (scaled (penalty (residuals k c y d))), state_of y, control_of v).
Proof.
  intros y v Hk Hs Hm Hct Hv Hcb Ha.
  destruct (f16_all y v model adj Hm Hct Hv Hcb Ha) as [d [nz [ny [az [ay E]]]]].
  exists d, nz, ny, az, ay. split; [exact E|].
  unfold clf16. cbn [k_singam const_of].
  assert (Ea : m_asin (Fin (q_singamma c)) = Ok (Fin (asin (q_singamma c)))).
  { unfold m_asin. change (nabs (Fin (q_singamma c))) with (Fin (Rabs (q_singamma c))).
    change (n1 : xr) with (Fin (1 / 1)).
    assert (Rabs (q_singamma c) <= 1) by (apply Rabs_le; lra).
    change (nltb (Fin (1 / 1)) (Fin (Rabs (q_singamma c)))) with (Rlt_bool (1 / 1) (Rabs (q_singamma c))).
    rewrite Rlt_bool_false by lra. cbn. rewrite Rle_bool_true by lra. reflexivity. }
  rewrite Ea. cbn [bind].
  assert (G : (if Nat.eqb (length (candidate_vec s)) 3 then
         Ok (upd (state_of x) 1 (nth0 (candidate_vec s) 2),
             upd (upd (control_of u) 0 (nth0 (candidate_vec s) 0)) 1 (nth0 (candidate_vec s) 1))
       else if Nat.ltb (length (candidate_vec s)) 7 then Err IndexError
       else
         Ok (upd (upd (upd (state_of x) 1 (nth0 (candidate_vec s) 4)) 3 (nth0 (candidate_vec s) 5)) 4
               (nth0 (candidate_vec s) 6),
             upd (upd (upd (upd (control_of u) 0 (nth0 (candidate_vec s) 0)) 1 (nth0 (candidate_vec s) 1)) 2
               (nth0 (candidate_vec s) 2)) 3 (nth0 (candidate_vec s) 3)))
     = Ok (state_of (candidate_state s x), control_of v)).
  { unfold v. destruct s; reflexivity. }
  rewrite G. cbn [bind].
  assert (P : forall w, upd (state_of (candidate_state s x)) 12 (Fin w)
     = state_of (with_attitude (candidate_state s x) (a_phi (candidate_state s x))
         (a_theta (candidate_state s x)) (a_p (candidate_state s x)) (a_q (candidate_state s x))
         (a_r (candidate_state s x)) w)) by reflexivity.
  change (nth0 (control_of v) 0) with (Fin (s_thr v)). rewrite tgear_power, P, conf16_fin. cbn [bind].
  match goal with |- context [constrained k c (s_thr v) ?z] =>
    assert (Ey : constrained k c (s_thr v) z = y) end.
  { unfold y, v. assert (D : k = 1%Z \/ k = 2%Z \/ k = 3%Z \/ k = 4%Z) by lia.
    destruct D as [->|[->|[->| ->]]]; reflexivity. }
  rewrite Ey, E. cbn [bind]. rewrite trim_cost_fin by assumption. cbn [bind].
  apply f_equal. apply f_equal2; [|reflexivity]. apply f_equal2; [|reflexivity].
  pose proof (penalty_pos _ (weights_pos k c y d)) as Hp.
  set (J := penalty (residuals k c y d)) in *. unfold scaled.
  change (nltb (Fin J) n1) with (Rlt_bool J (1 / 1)).
  case Rlt_bool_spec; intros HJ; destruct (Rlt_dec J 1); try lra; [|reflexivity].
  cbn. rewrite Rlt_bool_false by lra. reflexivity.
Qed.

(** An unknown orientation. *)
Lemma clf16_unknown s x u c model adj : (k_orient c < 1 \/ 4 < k_orient c)%Z ->
  is_ok (clf16 (T := xr) s x u c model adj) = false.
Proof.
  intros Hk. unfold clf16.
  destruct (m_asin (k_singam c)) as [g|]; cbn [bind]; [|reflexivity].
  match goal with |- is_ok (bind ?r _) = _ => destruct r as [[x1 u1]|] end; cbn [bind]; [|reflexivity].
  destruct (conf16 _ u1 c) as [x2|]; cbn [bind]; [|reflexivity].
  destruct (subf16_model x2 u1 model adj) as [[[[[xd ?] ?] ?] ?]|]; cbn [bind]; [|reflexivity].
  unfold trim_cost.
  destruct (Z.eqb_spec (k_orient c) 1); [lia|]. destruct (Z.eqb_spec (k_orient c) 2); [lia|].
  destruct (Z.eqb_spec (k_orient c) 3); [lia|]. destruct (Z.eqb_spec (k_orient c) 4); [lia|].
  reflexivity.
Qed.

(** * The constraints do what their names say (C79) *)
Lemma rates_inj phi th a b c a' b' c' : cos th <> 0 ->
  rates_of phi th a b c = rates_of phi th a' b' c' -> a = a' /\ b = b' /\ c = c'.
Proof.
  intros Hc H. unfold rates_of in H. injection H. intros H3 H2 H1.
  pose proof (sin2_cos2 phi) as S. unfold Rsqr in S.
  set (s := sin phi) in *. set (k := cos phi) in *. set (ct := cos th) in *.
  assert (Eb : b = b').
  { replace b with ((b * k + c * ct * s) * k - (- b * s + c * ct * k) * s) by (transitivity (b * (s * s + k * k)); [ring|rewrite S; ring]).
    rewrite H2, H3. transitivity (b' * (s * s + k * k)); [ring|rewrite S; ring]. }
  assert (Ec : c * ct = c' * ct).
  { transitivity ((b * k + c * ct * s) * s + (- b * s + c * ct * k) * k).
    - transitivity (c * ct * (s * s + k * k)); [rewrite S; ring|ring].
    - rewrite H2, H3. transitivity (c' * ct * (s * s + k * k)); [ring|rewrite S; ring]. }
  apply Rmult_eq_reg_r in Ec; [|exact Hc]. subst c'. split; [|split; [exact Eb|reflexivity]]. lra.
Qed.

Lemma turn_kinematics c thr x u model adj : known_model model = true -> cos (a_theta x) <> 0 ->
  exists out, subf16_model (state_of (constrained 3 c thr x)) (control_of u) model adj = Ok out /\
    comp out 3 = Fin 0 /\ comp out 4 = Fin 0 /\ comp out 5 = Fin (q_turn c).
Proof.
  intros Hm Hc. set (y := constrained 3 c thr x).
  assert (Hy : cos (a_theta y) <> 0) by exact Hc.
  destruct (f16_kin y u model adj Hm Hy) as [out [f' [t' [s' [E [K3 [K4 [K5 H]]]]]]]].
  exists out. split; [exact E|].
  destruct (rates_inj (a_phi x) (a_theta x) f' t' s' 0 0 (q_turn c) Hc) as [-> [-> ->]]; [exact H|].
  split; [exact K3|]. split; [exact K4|exact K5].
Qed.

Lemma pull_kinematics c thr x u model adj : known_model model = true -> cos (a_alpha x) <> 0 ->
  q_bank c = 0 ->
  exists out, subf16_model (state_of (constrained 4 c thr x)) (control_of u) model adj = Ok out /\
    comp out 4 = Fin (q_pull c) /\ comp out 5 = Fin 0.
Proof.
  intros Hm Hc Hb. set (y := constrained 4 c thr x).
  assert (Hy : cos (a_theta y) <> 0) by exact Hc.
  destruct (f16_kin y u model adj Hm Hy) as [out [f' [t' [s' [E [K3 [K4 [K5 H]]]]]]]].
  exists out. split; [exact E|].
  unfold rates_of in H. cbn [y constrained with_attitude a_phi a_theta a_p a_q a_r] in H.
  rewrite Hb, sin_0, cos_0 in H. injection H. intros H3 H2 _.
  assert (Es : s' = 0).
  { assert (s' * cos (a_alpha x) = 0) by lra. apply Rmult_integral in H0. tauto. }
  subst s'. replace (q_pull c) with t' by lra. split; assumption.
Qed.

Lemma climb_rate y u model adj : known_model model = true -> cos (a_theta y) <> 0 ->
  a_beta y = 0 -> a_phi y = 0 ->
  exists out, subf16_model (state_of y) (control_of u) model adj = Ok out /\
    comp out 11 = Fin (a_vt y * sin (a_theta y - a_alpha y)).
Proof.
  intros Hm Hc Hb Hf.
  destruct (f16_nav y u model adj Hm Hc) as [out [n [e [h [E [_ [_ [N3 [H _]]]]]]]]].
  exists out. split; [exact E|]. rewrite N3. apply f_equal.
  unfold to_earth, body_velocity, rot_x, rot_y, rot_z in H. rewrite Hb, Hf, sin_0, cos_0 in H.
  injection H. intros H3 _ _. rewrite sin_minus. lra.
Qed.

Lemma level_climb k c thr x u model adj : known_model model = true -> q_bank c = 0 -> a_beta x = 0 ->
  (k = 1%Z \/ k = 2%Z \/ k = 4%Z) ->
  let g := if Z.eqb k 2 then q_gamma c else 0 in
  cos (a_alpha x + g) <> 0 ->
  exists out, subf16_model (state_of (constrained k c thr x)) (control_of u) model adj = Ok out /\
    comp out 11 = Fin (a_vt x * sin g).
Proof.
  intros Hm Hb Hbe Hk g Hc.
  destruct (climb_rate (constrained k c thr x) u model adj Hm) as [out [E H]].
  - destruct Hk as [->|[->| ->]]; cbn in g; subst g; cbn; [|exact Hc|];
      rewrite Rplus_0_r in Hc; exact Hc.
  - destruct Hk as [->|[->| ->]]; exact Hbe.
  - destruct Hk as [->|[->| ->]]; exact Hb.
  - exists out. split; [exact E|]. rewrite H. apply f_equal.
    destruct Hk as [->|[->| ->]]; cbn in g; subst g; cbn; apply f_equal; apply f_equal; ring.
Qed.
