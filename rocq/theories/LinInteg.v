(** Rounding error of the point-mass integrators and examples (C112). *)
From Coq Require Import String ZArith Reals Bool List Lra Lia Permutation.
From Flocq Require Import Core.Core IEEE754.BinarySingleNaN.
From Verif Require Import PyBase Num Arr BaseModel Cwh Integ Spec SpecCwh SpecInteg NumOrdLemmas ArrLemmas BaseLemmas BaseLemmas2 BaseLemmas3 LimLemmas
  Float64 F64Wrap F64Bound F64Err XTac SpecRound RoundCwh SpecLin LinRound.
Import List ListNotations.
Local Open Scope R_scope.

Lemma nearly_mono j k a t g t' g' : (j <= k)%nat -> 0 <= g -> t = t' -> g = g' -> nearly j a t g -> nearly k a t' g'.
Proof.
  intros H G <- <- [F E]. split; [exact F|]. eapply Rle_trans; [exact E|]. apply Rplus_le_compat_r, Rmult_le_compat_r; [exact G|].
  apply Rmult_le_compat_r; [apply bpow_ge_0|apply le_INR, H].
Qed.

Section F.
  Variable lm : libm.
  Local Hint Extern 0 (Num f64) => exact (F64 lm) : typeclass_instances.

  Definition i0 : item := {| iv := n0; it := 0; ig := 0 |}.
  Definition i1 : item := {| iv := n1; it := 1; ig := 1 |}.
  Lemma e0 : entry i0. Proof. unfold entry. cbn [i0 iv it ig]. eapply ap_mono; [| | |apply (ap0 lm)]; lia. Qed.
  Lemma e1 : entry i1. Proof. unfold entry. cbn [i1 iv it ig]. eapply ap_mono; [| | |apply (ap1 lm)]; lia. Qed.

  Lemma integ_round (w : world f64) (e : entity f64) (m c : f64) mode k samples lo hi h ps vs l :
    offered mode k -> integ_dyn m c mode samples "Euler" = Ok (e_dyn e) -> (samples <= 0)%Z ->
    e_cmin e = A0 lo -> e_cmax e = A0 hi -> within 100 lo -> within 100 hi -> within 100 h ->
    is_finite m = true -> bpow radix2 (-100) <= Rabs (B2R m) -> within 100 c ->
    length ps = k -> length vs = k -> length l = k ->
    Forall (within 100) ps -> Forall (within 100) vs -> Forall (fun f : f64 => is_finite f = true) l -> e_state e = A1 (ps ++ vs) ->
    let o := entity_step w e h (AArr (A1 l)) in
    exists ps' vs', o_res o = Ok tt /\ e_state (o_entity o) = A1 (ps' ++ vs') /\ length ps' = k /\ length vs' = k /\
    forall i, (i < k)%nat ->
      let p := B2R (nth i ps (B754_zero false)) in let v := B2R (nth i vs (B754_zero false)) in
      let u := clipR (B2R lo) (B2R hi) (B2R (nth i l (B754_zero false))) in
      nearly 11 (nth i ps' (B754_zero false)) (p + B2R h * v) (Rabs p + Rabs (B2R h) * Rabs v) /\
      nearly 11 (nth i vs' (B754_zero false)) (v + B2R h * (- B2R c * v + u / B2R m))
        (Rabs v + Rabs (B2R h) * (Rabs (B2R c) * Rabs v + Rabs u / Rabs (B2R m))).
  Proof.
    intros Of E Sa C1 C2 Wlo Whi Wh Fm Hm Wc Lp Lv Ll Wp Wv Fl Es o.
    destruct (inv64 lm m Fm Hm) as (im & Im & Aim).
    set (id := {| iv := nneg c : f64; it := - B2R c; ig := Rabs (B2R c) |}).
    set (ii := {| iv := im; it := / B2R m; ig := / Rabs (B2R m) |}).
    assert (Ed : entry id).
    { unfold entry. cbn [id iv it ig]. eapply ap_mono; [| | |apply ap_opp, (ap_in c 100 Wc)]; lia. }
    assert (Ei : entry ii) by exact Aim. pose proof e0 as E0. pose proof e1 as E1.
    assert (M0 : 0 < / Rabs (B2R m)).
    { apply Rinv_0_lt_compat. pose proof (bpow_gt_0 radix2 (-100)). lra. }
    unfold integ_dyn, generate_dynamics_matrices in E. rewrite Im in E.
    assert (Cases : exists MA MB, linear_dyn (map (map iv) MA) (map (map iv) MB) samples "Euler" = Ok (e_dyn e) /\
      Forall (Forall entry) MA /\ Forall (Forall entry) MB /\
      match k with
      | 1%nat => MA = [[i0; i1]; [i0; id]] /\ MB = [[i0]; [ii]]
      | 2%nat => MA = [[i0; i0; i1; i0]; [i0; i0; i0; i1]; [i0; i0; id; i0]; [i0; i0; i0; id]] /\
                 MB = [[i0; i0]; [i0; i0]; [ii; i0]; [i0; ii]]
      | _ => k = 3%nat /\ MA = [[i0; i0; i0; i1; i0; i0]; [i0; i0; i0; i0; i1; i0]; [i0; i0; i0; i0; i0; i1];
                   [i0; i0; i0; id; i0; i0]; [i0; i0; i0; i0; id; i0]; [i0; i0; i0; i0; i0; id]] /\
             MB = [[i0; i0; i0]; [i0; i0; i0]; [i0; i0; i0]; [ii; i0; i0]; [i0; ii; i0]; [i0; i0; ii]]
      end).
    { destruct Of as [[-> ->]|[[-> ->]|[-> ->]]]; cbn [String.eqb Ascii.eqb Bool.eqb orb py_assert bind] in E.
      all: do 2 eexists; split; [|split; [|split; [|repeat split; reflexivity]]]; [exact E|..]; repeat (constructor; auto). }
    destruct Cases as (MA & MB & El & EA & EB & Sh).
    destruct (lin_shape lm _ _ _ _ _ El) as (D1 & D2 & D3 & D4 & D5 & D6 & D7 & Rw & LB & FA).
    assert (Len : length MA = length (ps ++ vs) /\ length MB = length (ps ++ vs) /\ Forall (fun r => length r = length (ps ++ vs)) MA /\
      Forall (fun r => length r = length l) MB /\ (length (ps ++ vs) <= 100)%nat /\ (length l <= 100)%nat /\
      (Nat.max (length (ps ++ vs)) (length l) + 5 <= 11)%nat).
    { rewrite app_length, Lp, Lv, Ll.
      destruct Of as [[_ ->]|[[_ ->]|[_ ->]]]; cbn in Sh; repeat match goal with H : _ /\ _ |- _ => destruct H end; subst MA MB; cbn; repeat split; try lia; repeat constructor. }
    destruct Len as (N1 & N2 & N3 & N4 & N5 & N6 & N7).
    destruct (lin_items lm w e MA MB lo hi h (ps ++ vs) l) as (s' & R1 & R2 & R3 & R4); auto.
    { rewrite D7. exact Sa. }
    { rewrite Rw. apply linear_computes; [exact LB|exact FA]. }
    { apply Forall_app. split; assumption. }
    assert (Ls' : length s' = (k + k)%nat) by (rewrite R3, app_length, Lp, Lv; reflexivity).
    exists (firstn k s'), (skipn k s'). split; [exact R1|]. split; [rewrite firstn_skipn; exact R2|].
    split; [rewrite firstn_length; lia|]. split; [rewrite skipn_length; lia|].
    rewrite app_length, Lp, Lv in R4. rewrite app_length, Lp, Lv in N7.
    clear R1 R2 C1 C2 Es El Rw LB FA D1 D2 D3 D4 D5 D6 D7 N1 N2 N3 N4 N5 N6 R3 EA EB E.
    destruct Of as [[_ ->]|[[_ ->]|[_ ->]]]; cbn in Sh; repeat match goal with H : _ /\ _ |- _ => destruct H end; subst MA MB.
    all: repeat match goal with H : length ?x = S _ |- _ => destruct x; [discriminate|cbn [length] in H; injection H as H]
                           | H : length ?x = 0%nat |- _ => destruct x; [clear H|discriminate]
                           | H : length ?x = (_ + _)%nat |- _ => cbn [Nat.add] in H end.
    all: intros i Hi p v u; pose proof (R4 i ltac:(lia)) as P; match type of Hi with (_ < ?k)%nat => pose proof (R4 (k + i)%nat ltac:(lia)) as Q end; clear R4.
    all: do 3 (try (destruct i as [|i]; [|cbn [length] in Hi; try lia])).
    all: cbn in P, Q; cbn [nth firstn skipn]; subst p v u; cbn [nth].
    all: split; (eapply nearly_mono; [exact N7| | | |first [exact P|exact Q]]); unfold rdot, Rdiv; cbn [map zipw fold_right nth app i0 i1 id ii it ig].
    all: try ring.
    all: repeat first [apply Rplus_le_le_0_compat|apply Rmult_le_pos|apply Rabs_pos|lra].
  Qed.
End F.

(** 10^16 + 1 - 10^16 in two orders: 0 and 1. *)
Lemma order_ex : exists l v w, summed l v /\ summed l w /\ B2SF v = SpecFloat.S754_zero false /\ B2SF w = B2SF (fl 1 1).
Proof.
  set (x := fl (10 ^ 16) 1). set (y := fl (- 10 ^ 16) 1). set (o := fl 1 1).
  exists [x; o; y], (Bplus mode_NE (Bplus mode_NE x o) y), (Bplus mode_NE (Bplus mode_NE x y) o). split; [|split; [|split]].
  - apply (sum_two _ [x; o] [y]); try discriminate; [apply Permutation_refl| |apply sum_one].
    apply (sum_two _ [x] [o]); try discriminate; [apply Permutation_refl|apply sum_one|apply sum_one].
  - apply (sum_two _ [x; y] [o]); try discriminate; [apply perm_skip, perm_swap| |apply sum_one].
    apply (sum_two _ [x] [y]); try discriminate; [apply Permutation_refl|apply sum_one|apply sum_one].
  - vm_compute. reflexivity.
  - vm_compute. reflexivity.
Qed.

Lemma lin_drift_ex : lin_drift (INR (Nat.max 6 3 + 5) * bpow radix2 (-52)) (1 + 1 / 100) 1000 1 100 <= / 10 ^ 8.
Proof.
  unfold lin_drift. replace (INR (Nat.max 6 3 + 5)) with 11 by (cbn; lra).
  assert (P48 : 11 * bpow radix2 (-52) <= 4 / 10 ^ 15) by (simpl; lra). pose proof (bpow_gt_0 radix2 (-52)).
  assert (P7 : bpow radix2 (-500) <= / 10 ^ 15).
  { apply (Rle_trans _ (bpow radix2 (-50))); [apply bpow_le; lia|simpl; lra]. }
  pose proof (bpow_gt_0 radix2 (-500)).
  set (x := (1 + 1 / 100) * (1 + 11 * bpow radix2 (-52))). assert (X : 0 <= x <= 1.011) by (unfold x; simpl (10 ^ 15) in P48; lra).
  assert (A : 0 <= x ^ 10 <= 1.12).
  { split; [apply pow_le; lra|]. eapply Rle_trans; [apply pow_incr; exact X|]. simpl. lra. }
  assert (C : 0 <= x ^ 100 <= 4).
  { change 100%nat with (10 * 10)%nat. rewrite pow_mult. split; [apply pow_le; lra|]. eapply Rle_trans; [apply pow_incr; exact A|]. simpl. lra. }
  replace (INR 100) with 100 by (simpl; lra).
  set (d := 11 * bpow radix2 (-52) * _ + _). assert (D : 0 <= d <= 5 / 10 ^ 12).
  { unfold d. simpl (10 ^ 15) in *. simpl (10 ^ 12). split; lra. }
  assert (x ^ 100 * d <= 4 * (5 / 10 ^ 12)) by (apply Rmult_le_compat; lra). simpl (10 ^ 12) in *. simpl (10 ^ 8). lra.
Qed.

(** A user-defined oscillator x'' = -x/2 + u: one step of 0.1 from (1, 0.3) with the command 5 saturated at 2. *)
Lemma lin_ex (w : world f64) :
  (d <- linear_dyn (N := F64 lm0) [[fl 0 1; fl 1 1]; [fl (-1) 2; fl 0 1]] [[fl 0 1]; [fl 1 1]] 0 "Euler" ;;
   let e := mk_entity (N := F64 lm0) d (A1 [fl 0 1]) (A0 (fl (-2) 1)) (A0 (fl 2 1)) None (A1 [fl 1 1; fl 3 10]) in
   let o := entity_step (N := F64 lm0) w e (fl 1 10) (AArr (A1 [fl 5 1])) in
   _ <- o_res o ;; match e_state (o_entity o) with A1 l => Ok (map (fun a => B2SF a) l) | A0 _ => Err TypeError end) =
  Ok [B2SF (fl 103 100); B2SF (fl 45 100)].
Proof. vm_compute. reflexivity. Qed.
