(** Binary64 runs of linear dynamics against exact runs (C112). *)
From Coq Require Import String ZArith Reals Bool List Lra Lia Permutation.
From Flocq Require Import Core.Core IEEE754.BinarySingleNaN.
From Verif Require Import PyBase Num Arr BaseModel Cwh Spec SpecBase SpecCwh NumOrdLemmas ArrLemmas BaseLemmas BaseLemmas2 BaseLemmas3 XReal XTac RkLemmas CwhLemmas LimLemmas
  Float64 F64Wrap F64Bound F64Err SpecRound RoundCwh RoundRun SpecLin LinRound.
Import List ListNotations.
Local Open Scope R_scope.

Fixpoint lerr (p q B c : R) (k : nat) : R :=
  match k with
  | O => 0
  | S k' => q * lerr p q B c k' + (p * (q * (B + lerr p q B c k') + c) + bpow radix2 (-500))
  end.
Section E.
  Context (p q B c : R) (P : 0 <= p) (Q : 1 <= q) (HB : 0 <= B) (Hc : 0 <= c).
  Lemma lerr_pos k : 0 <= lerr p q B c k.
  Proof.
    induction k; cbn [lerr]; [lra|]. pose proof (bpow_gt_0 radix2 (-500)).
    assert (0 <= q * lerr p q B c k) by (apply Rmult_le_pos; lra). assert (0 <= q * (B + lerr p q B c k)) by (apply Rmult_le_pos; lra).
    assert (0 <= p * (q * (B + lerr p q B c k) + c)) by (apply Rmult_le_pos; lra). lra.
  Qed.
  Lemma lerr_S k : lerr p q B c k <= lerr p q B c (S k).
  Proof.
    cbn [lerr]. pose proof (lerr_pos k). pose proof (bpow_gt_0 radix2 (-500)).
    assert (lerr p q B c k <= q * lerr p q B c k) by nra. assert (0 <= q * (B + lerr p q B c k)) by (apply Rmult_le_pos; lra).
    assert (0 <= p * (q * (B + lerr p q B c k) + c)) by (apply Rmult_le_pos; lra). lra.
  Qed.
  Lemma lerr_mono j k : (j <= k)%nat -> lerr p q B c j <= lerr p q B c k.
  Proof. intros H. induction H; [lra|]. eapply Rle_trans; [exact IHle|]. apply lerr_S. Qed.
  Lemma lerr_drift k : lerr p q B c k <= lin_drift p q B c k.
  Proof.
    unfold lin_drift. set (d := p * (q * B + c) + bpow radix2 (-500)).
    assert (0 <= q * B) by (apply Rmult_le_pos; lra).
    assert (d0 : 0 <= d). { unfold d. pose proof (bpow_gt_0 radix2 (-500)). assert (0 <= p * (q * B + c)) by (apply Rmult_le_pos; lra). lra. }
    set (g := q * (1 + p)). assert (g1 : 1 <= g) by (unfold g; nra).
    induction k as [|k IH]; [cbn; lra|].
    assert (R : lerr p q B c (S k) = g * lerr p q B c k + d) by (cbn [lerr]; unfold g, d; ring).
    rewrite R, S_INR. assert (G : 1 <= g ^ S k) by (apply pow_R1_Rle; exact g1).
    assert (g * lerr p q B c k <= g * (INR k * g ^ k * d)) by (apply Rmult_le_compat_l; lra).
    replace (g * (INR k * g ^ k * d)) with (INR k * g ^ S k * d) in * by (cbn [pow]; ring).
    assert (1 * d <= g ^ S k * d) by (apply Rmult_le_compat_r; assumption). lra.
  Qed.
End E.

(** Inner products. *)
Lemma rdot_vdot a x : rdot a x = vdot a x.
Proof. revert x. induction a as [|y a IH]; intros [|z x]; try reflexivity. unfold rdot in *. cbn [zipw fold_right vdot]. rewrite IH. reflexivity. Qed.
Lemma asum_pos a : 0 <= asum a.
Proof. unfold asum. induction a as [|x a IH]; cbn [map fold_right]; [lra|]. pose proof (Rabs_pos x). lra. Qed.
Lemma rdot_size a x M : 0 <= M -> Forall (fun t => Rabs t <= M) x -> 0 <= rdot (map Rabs a) (map Rabs x) <= asum a * M.
Proof.
  intros HM. revert x. induction a as [|y a IH]; intros x F.
  - unfold rdot, asum. cbn. lra.
  - pose proof (asum_pos (y :: a)). destruct x as [|z x]; [unfold rdot; cbn [map zipw fold_right]; split; [lra|apply Rmult_le_pos; assumption]|].
    inversion F as [|? ? Hz Fx]; subst. specialize (IH x Fx). unfold rdot, asum in *. cbn [map zipw fold_right] in *.
    pose proof (Rabs_pos y). pose proof (Rabs_pos z).
    assert (0 <= Rabs y * Rabs z) by (apply Rmult_le_pos; lra). assert (Rabs y * Rabs z <= Rabs y * M) by (apply Rmult_le_compat_l; lra). lra.
Qed.
Lemma rdot_diff a x y E : 0 <= E -> Forall2 (fun s t => Rabs (s - t) <= E) x y -> Rabs (rdot a x - rdot a y) <= asum a * E.
Proof.
  intros HE. revert x y. induction a as [|b a IH]; intros x y F.
  - unfold rdot, asum. cbn. rewrite Rminus_eq_0, Rabs_R0. lra.
  - pose proof (asum_pos (b :: a)). inversion F as [|s t x' y' Hs F']; subst.
    + unfold rdot. cbn. rewrite Rminus_eq_0, Rabs_R0. apply Rmult_le_pos; assumption.
    + specialize (IH _ _ F'). unfold rdot, asum in *. cbn [map zipw fold_right] in *.
      replace (b * s + fold_right Rplus 0 (zipw Rmult a x') - (b * t + fold_right Rplus 0 (zipw Rmult a y'))) with
        (b * (s - t) + (fold_right Rplus 0 (zipw Rmult a x') - fold_right Rplus 0 (zipw Rmult a y'))) by ring.
      eapply Rle_trans; [apply Rabs_triang|]. rewrite Rabs_mult. pose proof (Rabs_pos b).
      assert (Rabs b * Rabs (s - t) <= Rabs b * E) by (apply Rmult_le_compat_l; lra). lra.
Qed.

Lemma tracks_nth E s r : tracks E s r <-> length s = length r /\
  forall i, (i < length s)%nat -> is_finite (nth i s (B754_zero false)) = true /\ Rabs (B2R (nth i s (B754_zero false)) - nth i r 0) <= E.
Proof.
  unfold tracks. split.
  - induction 1 as [|a b s r H F [L IH]]; [split; [reflexivity|cbn; lia]|]. split; [cbn; congruence|].
    intros [|i] Hi; [exact H|]. cbn [nth]. apply IH. cbn in Hi. lia.
  - revert r. induction s as [|a s IH]; intros [|b r] [L H]; try discriminate; constructor.
    + apply (H 0%nat). cbn; lia.
    + apply IH. split; [cbn in L; lia|]. intros i Hi. apply (H (S i)). cbn; lia.
Qed.

Section F.
  Variable lm : libm.

  (** The exact Euler step. *)
  Lemma exact_lin (w : world xr) (e : entity xr) (A B : list (list R)) samples lo hi h r l :
    linear_dyn (N := XR Fin) (map (map Fin) A) (map (map Fin) B) samples "Euler" = Ok (e_dyn e) -> (samples <= 0)%Z ->
    e_cmin e = A0 (Fin lo) -> e_cmax e = A0 (Fin hi) -> e_state e = A1 (map Fin r) -> length A = length r ->
    Forall (fun row => length row = length l) B ->
    let o := entity_step (N := XR Fin) w e (Fin h) (AArr (A1 (map Fin l))) in
    let u := map (clipR lo hi) l in
    o_res o = Ok tt /\ e_state (o_entity o) = A1 (map Fin (zipw Rplus r (map (Rmult h) (zipw Rplus (map (fun a => vdot a r) A) (map (fun a => vdot a u) B))))).
  Proof.
    intros E Sa C1 C2 Es LA FB o u.
    assert (Sh : d_min (e_dyn e) = no_min (N := XR Fin) /\ d_max (e_dyn e) = no_max (N := XR Fin) /\ d_sdmin (e_dyn e) = no_min (N := XR Fin) /\
      d_sdmax (e_dyn e) = no_max (N := XR Fin) /\ d_wrap (e_dyn e) = None /\ d_method (e_dyn e) = "Euler"%string /\
      d_samples (e_dyn e) = samples /\ d_raw (e_dyn e) = linear_raw (N := XR Fin) (map (map Fin) A) (map (map Fin) B) /\
      length B = length A /\ Forall (fun a => length a = length A) A).
    { unfold linear_dyn in E. destruct (is_rect (map (map Fin) A) _) eqn:R; [|discriminate]. cbn [py_assert bind] in E.
      destruct (_ =? _)%nat eqn:L; [|discriminate]. cbn [py_assert bind] in E. injection E as <-. apply Nat.eqb_eq in L.
      rewrite !map_length in L. repeat split; auto. unfold is_rect in R. apply Forall_forall. intros a Ha. rewrite forallb_forall in R.
      specialize (R (map Fin a) (in_map _ _ _ Ha)). apply Nat.eqb_eq in R. rewrite !map_length in R. exact R. }
    destruct Sh as (D1 & D2 & D3 & D4 & D5 & D6 & D7 & Rw & LB & FA).
    set (rr := zipw Rplus (map (fun a => vdot a r) A) (map (fun a => vdot a u) B)).
    assert (Lrr : length rr = length r).
    { unfold rr. rewrite zipw_length by (rewrite !map_length; congruence). rewrite map_length. exact LA. }
    assert (FF : forall v : list R, Forall (free (N := XR Fin)) (map Fin v)).
    { intros v. apply Forall_map, Forall_forall. intros x _. repeat split. }
    assert (Zs : forall (v v' : list R) h, zipw (nadd (Num := XR Fin)) (map Fin v) (map (nmul (Num := XR Fin) (Fin h)) (map Fin v')) = map Fin (zipw Rplus v (map (Rmult h) v'))).
    { clear. induction v as [|a v IH]; intros [|b v'] h; try reflexivity. cbn [map zipw]. f_equal. apply IH. }
    destruct (lin_euler_gen (N := XR Fin) w e (Fin lo) (Fin hi) (Fin h) (map Fin r) (map Fin l) (map Fin rr)) as [R1 R2]; auto.
    - rewrite D7. exact Sa.
    - rewrite !map_length. exact Lrr.
    - assert (Eu : map (fun x => clip1 (N := XR Fin) x (Fin lo) (Fin hi)) (map Fin l) = map Fin u).
      { unfold u. rewrite !map_map. apply map_ext. intros x. apply (clip1_Fin Fin). }
      rewrite Eu, Rw. apply (linear_raw_Fin Fin).
      + rewrite Forall_forall in FA |- *. intros a Ha. rewrite FA by exact Ha. exact LA.
      + eapply Forall_impl; [|exact FB]. intros a Ha. unfold u. rewrite map_length. exact Ha.
      + congruence.
    - rewrite Zs. apply FF.
    - split; [exact R1|]. etransitivity; [exact R2|]. rewrite Zs. reflexivity.
  Qed.

  Lemma exact_nth h (A B : list (list R)) r u i : length A = length r -> length B = length r -> (i < length r)%nat ->
    nth i (zipw Rplus r (map (Rmult h) (zipw Rplus (map (fun a => vdot a r) A) (map (fun a => vdot a u) B)))) 0 =
    nth i r 0 + h * (rdot (nth i A []) r + rdot (nth i B []) u).
  Proof.
    intros LA LB Hi.
    assert (Z : forall (l m : list R) i, length l = length m -> (i < length l)%nat -> nth i (zipw Rplus l m) 0 = nth i l 0 + nth i m 0).
    { clear. induction l as [|a l IH]; intros [|b m] [|i] L H; try discriminate; cbn in L, H; try lia; [reflexivity|]. cbn [zipw nth]. apply IH; lia. }
    assert (L2 : length (zipw Rplus (map (fun a => vdot a r) A) (map (fun a => vdot a u) B)) = length r).
    { rewrite zipw_length by (rewrite !map_length; congruence). rewrite map_length. exact LA. }
    rewrite Z by (rewrite ?map_length; congruence || lia). f_equal.
    rewrite (nth_indep _ 0 (h * 0)) by (rewrite map_length; lia). rewrite (map_nth (Rmult h)). f_equal.
    rewrite Z by (rewrite !map_length; congruence || lia).
    rewrite (nth_indep _ 0 (vdot [] r)) by (rewrite map_length; lia). rewrite (map_nth (fun a => vdot a r)).
    rewrite (nth_indep (map _ B) 0 (vdot [] u)) by (rewrite map_length; lia). rewrite (map_nth (fun a => vdot a u)).
    rewrite !rdot_vdot. reflexivity.
  Qed.

  Lemma lin_step_tracks (w : world f64) (wr : world xr) (e : entity f64) (er : entity xr) (A B : list (list f64)) samples (lo hi h : f64) s r l H KA KB U Bd E :
    linear_dyn (N := F64 lm) A B samples "Euler" = Ok (e_dyn e) ->
    linear_dyn (N := XR Fin) (map (map Fin) (map (map B2R) A)) (map (map Fin) (map (map B2R) B)) samples "Euler" = Ok (e_dyn er) -> (samples <= 0)%Z ->
    e_cmin e = A0 lo -> e_cmax e = A0 hi -> e_cmin er = A0 (Fin (B2R lo)) -> e_cmax er = A0 (Fin (B2R hi)) ->
    within 100 lo -> within 100 hi -> Rabs (B2R lo) <= U -> Rabs (B2R hi) <= U ->
    Forall (Forall (within 100)) A -> Forall (Forall (within 100)) B ->
    Forall (fun a => asum (map B2R a) <= KA) A -> Forall (fun a => asum (map B2R a) <= KB) B -> 0 <= KA -> 0 <= KB ->
    length A = length s -> Forall (fun a => length a = length l) B -> (length s <= 100)%nat -> (length l <= 100)%nat ->
    within 100 h -> Rabs (B2R h) <= H -> Forall (fun f : f64 => is_finite f = true) l ->
    e_state e = A1 s -> e_state er = A1 (map Fin r) -> tracks E s r -> 0 <= E ->
    Forall (fun t => Rabs t <= Bd) r -> 0 <= Bd -> Bd + E <= bpow radix2 100 ->
    let p := INR (Nat.max (length s) (length l) + 5) * bpow radix2 (-52) in
    let q := 1 + H * KA in
    let c := H * (KB * U) in
    let o := entity_step (N := F64 lm) w e h (AArr (A1 l)) in
    let o' := entity_step (N := XR Fin) wr er (Fin (B2R h)) (AArr (A1 (map Fin (map B2R l)))) in
    exists s' r', o_res o = Ok tt /\ o_res o' = Ok tt /\ e_state (o_entity o) = A1 s' /\ e_state (o_entity o') = A1 (map Fin r') /\
      length s' = length s /\ tracks (q * E + (p * (q * (Bd + E) + c) + bpow radix2 (-500))) s' r'.
  Proof.
    intros Dd Dr Sa C1 C2 C1r C2r Wlo Whi Ulo Uhi WA WB SA SB KA0 KB0 LA FB Ls Ll Wh Hh Fl Es Er Tr PE Bdr Bd0 Cap p q c o o'.
    pose proof (proj1 (tracks_nth E s r) Tr) as [Lr Tn].
    assert (Sz : Forall (fun a : f64 => is_finite a = true /\ Rabs (B2R a) <= Bd + E) s).
    { clear -Tr Bdr. unfold tracks in Tr. induction Tr as [|a t s r [Fa Ha] T IH]; constructor.
      - inversion Bdr; subst. split; [exact Fa|]. replace (B2R a) with (t + (B2R a - t)) by ring. eapply Rle_trans; [apply Rabs_triang|]. lra.
      - apply IH. inversion Bdr; assumption. }
    assert (Ws : Forall (within 100) s) by (eapply Forall_impl; [|exact Sz]; intros a [Fa Ha]; split; [exact Fa|lra]).
    assert (LB : length B = length A) by (destruct (lin_shape lm _ _ _ _ _ Dd) as (_ & _ & _ & _ & _ & _ & _ & _ & LB & _); exact LB).
    destruct (lin_round_step lm w e A B samples lo hi h s l Dd Sa C1 C2 Wlo Whi Wh WA WB LA FB Ls Ll Ws Fl Es) as (s' & O1 & O2 & Ls' & Ag).
    rewrite map_length in Ls', Ag. rewrite map_length in Ag.
    destruct (exact_lin wr er (map (map B2R) A) (map (map B2R) B) samples (B2R lo) (B2R hi) (B2R h) r (map B2R l) Dr Sa C1r C2r Er) as [P1 P2].
    { etransitivity; [apply map_length|]. etransitivity; [exact LA|exact Lr]. }
    { apply Forall_map. eapply Forall_impl; [|exact FB]. intros a Ha. rewrite !map_length. exact Ha. }
    eexists s', _. split; [exact O1|]. split; [exact P1|]. split; [exact O2|]. split; [exact P2|]. split; [exact Ls'|].
    apply tracks_nth.
    assert (LAm : length (map (map B2R) A) = length r) by (etransitivity; [apply map_length|]; etransitivity; [exact LA|exact Lr]).
    assert (LBm : length (map (map B2R) B) = length r) by (etransitivity; [apply map_length|]; etransitivity; [exact LB|]; etransitivity; [exact LA|exact Lr]).
    assert (Lz : length (zipw Rplus (map (fun a => vdot a r) (map (map B2R) A)) (map (fun a => vdot a (map (clipR (B2R lo) (B2R hi)) (map B2R l))) (map (map B2R) B))) = length r).
    { rewrite zipw_length; [etransitivity; [apply map_length|exact LAm]|].
      etransitivity; [apply map_length|]. symmetry. etransitivity; [apply map_length|congruence]. }
    split; [rewrite zipw_length by (rewrite map_length; congruence); etransitivity; [exact Ls'|exact Lr]|].
    rewrite Ls'. intros i Hi. assert (Hr : (i < length r)%nat) by (rewrite <- Lr; exact Hi). rewrite exact_nth by assumption.
    assert (HA : (i < length A)%nat) by (rewrite LA; exact Hi). assert (HB' : (i < length B)%nat) by (rewrite LB; exact HA).
    specialize (Ag i Hi). rewrite map_map.
    set (u := map (fun f => clipR (B2R lo) (B2R hi) (B2R f)) l) in *.
    assert (Rw : forall M : list (list f64), nth i (map (map B2R) M) [] = map B2R (nth i M [])) by (intros M; apply (map_nth (map B2R) M [])).
    rewrite !Rw in Ag |- *.
    assert (Ka : asum (map B2R (nth i A [])) <= KA) by (rewrite Forall_forall in SA; apply SA, nth_In; exact HA).
    assert (Kb : asum (map B2R (nth i B [])) <= KB) by (rewrite Forall_forall in SB; apply SB, nth_In; exact HB').
    assert (U0 : 0 <= U) by (eapply Rle_trans; [apply Rabs_pos|exact Ulo]).
    assert (Fu : Forall (fun t => Rabs t <= U) u).
    { unfold u. apply Forall_map, Forall_forall. intros f _. apply Rabs_le_inv in Ulo. apply Rabs_le_inv in Uhi. apply Rabs_le.
      unfold clipR, Rmin, Rmax. repeat destruct (Rle_dec _ _); lra. }
    assert (Fs : Forall (fun t => Rabs t <= Bd + E) (map B2R s)) by (apply Forall_map; eapply Forall_impl; [|exact Sz]; intros a [_ Ha]; exact Ha).
    assert (F2 : Forall2 (fun x y => Rabs (x - y) <= E) (map B2R s) r).
    { clear -Tr. unfold tracks in Tr. induction Tr as [|a t s r [_ Ha] T IH]; constructor; auto. }
    pose proof (rdot_diff (map B2R (nth i A [])) _ _ E PE F2) as Rd.
    pose proof (rdot_size (map B2R (nth i A [])) _ (Bd + E) ltac:(lra) Fs) as Ra.
    pose proof (rdot_size (map B2R (nth i B [])) _ U U0 Fu) as Rb.
    pose proof (asum_pos (map B2R (nth i A []))) as Pa. pose proof (asum_pos (map B2R (nth i B []))) as Pb.
    set (sa := asum (map B2R (nth i A []))) in *. set (sb := asum (map B2R (nth i B []))) in *.
    assert (I1 : sa * (Bd + E) <= KA * (Bd + E)) by (apply Rmult_le_compat_r; lra).
    assert (I2 : sb * U <= KB * U) by (apply Rmult_le_compat_r; lra).
    assert (I3 : sa * E <= KA * E) by (apply Rmult_le_compat_r; lra).
    destruct Ag as [Fin' Ag]. split; [exact Fin'|]. fold p in Ag.
    destruct (Tn i Hi) as [_ Ti].
    replace (nth i (map B2R s) 0) with (B2R (nth i s (B754_zero false))) in Ag by (change 0 with (B2R (B754_zero false : f64)); rewrite map_nth; reflexivity).
    assert (Si : Rabs (B2R (nth i s (B754_zero false))) <= Bd + E) by (rewrite Forall_forall in Sz; apply Sz, nth_In, Hi).
    set (x := B2R (nth i s (B754_zero false))) in *. set (h' := B2R h) in *.
    set (da := rdot (map B2R (nth i A [])) (map B2R s)) in *. set (db := rdot (map B2R (nth i B [])) u) in *.
    set (dr := rdot (map B2R (nth i A [])) r) in *.
    set (ga := rdot (map Rabs (map B2R (nth i A []))) (map Rabs (map B2R s))) in *.
    set (gb := rdot (map Rabs (map B2R (nth i B []))) (map Rabs u)) in *.
    pose proof (Rabs_pos h') as h0.
    assert (p0 : 0 <= p) by (unfold p; apply Rmult_le_pos; [apply pos_INR|apply bpow_ge_0]).
    assert (G : Rabs x + Rabs h' * (ga + gb) <= q * (Bd + E) + c).
    { assert (Rabs h' * (ga + gb) <= H * (KA * (Bd + E) + KB * U)) by (apply Rmult_le_compat; lra). unfold q, c. lra. }
    assert (D : Rabs ((x + h' * (da + db)) - (nth i r 0 + h' * (dr + db))) <= q * E).
    { replace ((x + h' * (da + db)) - (nth i r 0 + h' * (dr + db))) with ((x - nth i r 0) + h' * (da - dr)) by ring.
      eapply Rle_trans; [apply Rabs_triang|]. rewrite Rabs_mult. pose proof (Rabs_pos (da - dr)).
      assert (Rabs h' * Rabs (da - dr) <= H * (KA * E)) by (apply Rmult_le_compat; lra). unfold q. lra. }
    set (v := B2R (nth i s' (B754_zero false))) in *.
    replace (v - (nth i r 0 + h' * (dr + db))) with (((x + h' * (da + db)) - (nth i r 0 + h' * (dr + db))) + (v - (x + h' * (da + db)))) by ring.
    eapply Rle_trans; [apply Rabs_triang|].
    assert (p * (Rabs x + Rabs h' * (ga + gb)) <= p * (q * (Bd + E) + c)) by (apply Rmult_le_compat_l; lra).
    assert (Ag' : Rabs (v - (x + h' * (da + db))) <= p * (Rabs x + Rabs h' * (ga + gb)) + bpow radix2 (-500)) by exact Ag. lra.
  Qed.

  Lemma lin_run_tracks (w : world f64) (wr : world xr) (A B : list (list f64)) samples (lo hi : f64) H KA KB U Bd n m :
    (samples <= 0)%Z -> within 100 lo -> within 100 hi -> Rabs (B2R lo) <= U -> Rabs (B2R hi) <= U ->
    Forall (Forall (within 100)) A -> Forall (Forall (within 100)) B ->
    Forall (fun a => asum (map B2R a) <= KA) A -> Forall (fun a => asum (map B2R a) <= KB) B -> 0 <= KA -> 0 <= KB ->
    length A = n -> Forall (fun a => length a = m) B -> (n <= 100)%nat -> (m <= 100)%nat -> 0 <= H -> 0 <= Bd ->
    let p := INR (Nat.max n m + 5) * bpow radix2 (-52) in
    let q := 1 + H * KA in
    let c := H * (KB * U) in
    forall acts k (e : entity f64) (er : entity xr) s r,
    linear_dyn (N := F64 lm) A B samples "Euler" = Ok (e_dyn e) ->
    linear_dyn (N := XR Fin) (map (map Fin) (map (map B2R) A)) (map (map Fin) (map (map B2R) B)) samples "Euler" = Ok (e_dyn er) ->
    e_cmin e = A0 lo -> e_cmax e = A0 hi -> e_cmin er = A0 (Fin (B2R lo)) -> e_cmax er = A0 (Fin (B2R hi)) ->
    Forall (lin_proper H m) acts -> e_state e = A1 s -> e_state er = A1 (map Fin r) -> length s = n -> tracks (lerr p q Bd c k) s r ->
    stays wr er Bd (actsR acts) -> Bd + lerr p q Bd c (k + length acts) <= bpow radix2 100 ->
    exists e' er' s' r', run (N := F64 lm) w e (acts64 acts) = Ok e' /\ run (N := XR Fin) wr er (actsR acts) = Ok er' /\
      e_state e' = A1 s' /\ e_state er' = A1 (map Fin r') /\ tracks (lerr p q Bd c (k + length acts)) s' r'.
  Proof.
    intros Sa Wlo Whi Ulo Uhi WA WB SA SB KA0 KB0 LA FB Ln Lm H0 B0 p q c.
    assert (U0 : 0 <= U) by (eapply Rle_trans; [apply Rabs_pos|exact Ulo]).
    assert (p0 : 0 <= p) by (unfold p; apply Rmult_le_pos; [apply pos_INR|apply bpow_ge_0]).
    assert (Q1 : 1 <= q) by (unfold q; assert (0 <= H * KA) by (apply Rmult_le_pos; assumption); lra).
    assert (c0 : 0 <= c) by (unfold c; repeat apply Rmult_le_pos; assumption).
    induction acts as [|[h u] acts IH]; intros k e er s r Dd Dr C1 C2 C1r C2r Pa Es Er Ls Tr St Cap.
    - exists e, er, s, r. cbn [length]. rewrite Nat.add_0_r. repeat split; auto.
    - apply Forall_cons_iff in Pa as [(Wh & Hh & Lu & Fu) Pa']. cbn [fst snd] in *. cbn [length] in Cap.
      destruct (St 0%nat er eq_refl) as (r0 & Er0 & Bdr). rewrite Er in Er0. injection Er0 as Er0.
      apply (map_inj_Fin r r0) in Er0. subst r0.
      assert (Ek : lerr p q Bd c k <= lerr p q Bd c (k + S (length acts))) by (apply (lerr_mono p q Bd c p0 Q1 B0 c0), Nat.le_add_r).
      destruct (lin_step_tracks w wr e er A B samples lo hi h s r u H KA KB U Bd (lerr p q Bd c k) Dd Dr Sa C1 C2 C1r C2r Wlo Whi Ulo Uhi WA WB SA SB KA0 KB0)
        as (s' & r' & O1 & O2 & S1 & S2 & L' & T'); auto; try congruence.
      { eapply Forall_impl; [|exact FB]. intros a Ha. etransitivity; [exact Ha|symmetry; exact Lu]. }
      { apply (lerr_pos p q Bd c p0 Q1 B0 c0). }
      { lra. }
      assert (T2 : tracks (lerr p q Bd c (S k)) s' r').
      { cbn [lerr]. assert (Ep : INR (Nat.max (length s) (length u) + 5) * bpow radix2 (-52) = p) by (unfold p; rewrite Ls, Lu; reflexivity).
        rewrite Ep in T'. exact T'. }
      assert (G1 := entity_step_config (N := F64 lm) w e h (AArr (A1 u))).
      assert (G2 := entity_step_config (N := XR Fin) wr er (Fin (B2R h)) (AArr (A1 (map Fin (map B2R u))))).
      destruct G1 as (K1 & _ & K2 & K3 & _). destruct G2 as (J1 & _ & J2 & J3 & _).
      destruct (IH (S k) _ _ s' r' ltac:(rewrite K1; exact Dd) ltac:(rewrite J1; exact Dr) ltac:(rewrite K2; exact C1) ltac:(rewrite K3; exact C2)
        ltac:(rewrite J2; exact C1r) ltac:(rewrite J3; exact C2r) Pa' S1 S2 ltac:(congruence)) as (e' & er' & s2 & r2 & X1 & X2 & X3 & X4 & X5).
      { exact T2. }
      { intros j e' Rn. apply (St (S j) e'). cbn [actsR map firstn run fst snd]. rewrite O2. cbn [bind]. exact Rn. }
      { replace (S k + length acts)%nat with (k + S (length acts))%nat by lia. exact Cap. }
      exists e', er', s2, r2. cbn [acts64 actsR map run fst snd]. rewrite O1, O2. cbn [bind].
      replace (k + length ((h, u) :: acts))%nat with (S k + length acts)%nat by (cbn [length]; lia).
      repeat split; auto.
  Qed.

  Lemma lin_tracks (w : world f64) (wr : world xr) (A B : list (list f64)) samples (lo hi : f64) H KA KB U Bd m acts (e : entity f64) (er : entity xr) s :
    linear_dyn (N := F64 lm) A B samples "Euler" = Ok (e_dyn e) ->
    linear_dyn (N := XR Fin) (map (map Fin) (map (map B2R) A)) (map (map Fin) (map (map B2R) B)) samples "Euler" = Ok (e_dyn er) ->
    (samples <= 0)%Z -> e_cmin e = A0 lo -> e_cmax e = A0 hi -> e_cmin er = A0 (Fin (B2R lo)) -> e_cmax er = A0 (Fin (B2R hi)) ->
    within 100 lo -> within 100 hi -> Rabs (B2R lo) <= U -> Rabs (B2R hi) <= U ->
    Forall (Forall (within 100)) A -> Forall (Forall (within 100)) B ->
    Forall (fun a => asum (map B2R a) <= KA) A -> Forall (fun a => asum (map B2R a) <= KB) B -> 0 <= KA -> 0 <= KB ->
    length A = length s -> Forall (fun a => length a = m) B -> (length s <= 100)%nat -> (m <= 100)%nat -> 0 <= H -> 0 <= Bd ->
    e_state e = A1 s -> e_state er = A1 (map Fin (map B2R s)) -> Forall (fun a : f64 => is_finite a = true) s ->
    let p := INR (Nat.max (length s) m + 5) * bpow radix2 (-52) in
    let q := 1 + H * KA in
    let c := H * (KB * U) in
    Forall (lin_proper H m) acts -> stays wr er Bd (actsR acts) -> Bd + lin_drift p q Bd c (length acts) <= bpow radix2 100 ->
    exists e' er' s' r', run (N := F64 lm) w e (acts64 acts) = Ok e' /\ run (N := XR Fin) wr er (actsR acts) = Ok er' /\
      e_state e' = A1 s' /\ e_state er' = A1 (map Fin r') /\ tracks (lin_drift p q Bd c (length acts)) s' r'.
  Proof.
    intros Dd Dr Sa C1 C2 C1r C2r Wlo Whi Ulo Uhi WA WB SA SB KA0 KB0 LA FB Ls Lm H0 B0 Es Er F0 p q c Pa St Cap.
    assert (U0 : 0 <= U) by (eapply Rle_trans; [apply Rabs_pos|exact Ulo]).
    assert (p0 : 0 <= p) by (unfold p; apply Rmult_le_pos; [apply pos_INR|apply bpow_ge_0]).
    assert (Q1 : 1 <= q) by (unfold q; assert (0 <= H * KA) by (apply Rmult_le_pos; assumption); lra).
    assert (c0 : 0 <= c) by (unfold c; repeat apply Rmult_le_pos; assumption).
    pose proof (lerr_drift p q Bd c p0 Q1 B0 c0 (length acts)) as Ed.
    destruct (lin_run_tracks w wr A B samples lo hi H KA KB U Bd (length s) m Sa Wlo Whi Ulo Uhi WA WB SA SB KA0 KB0 LA FB Ls Lm H0 B0 acts 0 e er s (map B2R s)
      Dd Dr C1 C2 C1r C2r Pa Es Er eq_refl) as (e' & er' & s' & r' & X1 & X2 & X3 & X4 & X5).
    - cbn [lerr]. unfold tracks. clear -F0. induction F0; cbn [map]; constructor; auto.
      split; [assumption|]. rewrite Rminus_eq_0, Rabs_R0. lra.
    - exact St.
    - fold p q c. cbn [Nat.add]. lra.
    - exists e', er', s', r'. repeat split; auto. eapply tracks_mono; [exact Ed|exact X5].
  Qed.
End F.
