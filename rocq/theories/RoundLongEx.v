(** Numbers for the long runs of C106. *)
From Coq Require Import String ZArith Reals Bool List Lra Lia.
From Flocq Require Import Core.Core IEEE754.BinarySingleNaN.
From Verif Require Import PyBase Num Arr BaseModel Cwh Spec SpecBase SpecCwh XReal XTac Float64 SpecRound RoundRun SpecLong RoundLong FlyEx.
Import List ListNotations.
Local Open Scope R_scope.

Lemma n_val : is_finite (fl 1027 1000000) = true /\ 0 < B2R (fl 1027 1000000) <= 1028 / 1000000.
Proof.
  assert (V : is_finite (fl 1027 1000000) = true /\ B2R (fl 1027 1000000) = F2R (Float radix2 4736201540924927 (-62)))
    by (eapply fl_val; [vm_compute; reflexivity|reflexivity]).
  destruct V as [F V]. split; [exact F|]. rewrite V. unfold F2R. cbn. lra.
Qed.

Lemma m_val : is_finite (fl 12 1) = true /\ B2R (fl 12 1) = 12.
Proof. eapply fl_val; [vm_compute; reflexivity|unfold F2R; cbn; lra]. Qed.

Lemma pow_1000 k x a b c : k = (10 * 10 * 10)%nat -> 0 <= x -> x ^ 10 <= a -> a ^ 10 <= b -> b ^ 10 <= c -> 0 <= x ^ k <= c.
Proof.
  intros -> X A B C. assert (0 <= x ^ 10) by (apply pow_le; exact X).
  rewrite !pow_mult. split; [repeat apply pow_le; exact X|].
  assert (P1 : 0 <= (x ^ 10) ^ 10 <= b) by (split; [repeat apply pow_le; exact X|eapply Rle_trans; [apply pow_incr; split; [|exact A]; assumption|exact B]]).
  eapply Rle_trans; [apply pow_incr; exact P1|exact C].
Qed.

Lemma long_ex (lm : libm) (w : world f64) (wr : world xr) (x y z vx vy vz : f64) acts e er :
  let f := fun a : f64 => nf32 (Num := F64 lm) a in
  let g := fun a : f64 => Fin (B2R (f a)) in
  let m := fl 12 1 in let n := fl 1027 1000000 in
  cwh_spacecraft (N := F64 lm) m n 0 "Euler" x y z vx vy vz = Ok e ->
  cwh_spacecraft (N := XR Fin) (Fin (B2R m)) (Fin (B2R n)) 0 "Euler" (g x) (g y) (g z) (g vx) (g vy) (g vz) = Ok er ->
  Forall (fun a => is_finite (f a) = true) [x; y; z; vx; vy; vz] ->
  sized 1000 10 (map (fun a => B2R (f a)) [x; y; z; vx; vy; vz]) -> Forall (proper 1) acts -> length acts = 1000%nat ->
  exists e' er' s' r', run (N := F64 lm) w e (acts64 acts) = Ok e' /\ run (N := XR Fin) wr er (actsR acts) = Ok er' /\
    e_state e' = A1 s' /\ e_state er' = A1 (map Fin r') /\ tracks_scaled 1000 (/ 10 ^ 4) s' r'.
Proof.
  intros f g m n Ee Er F0 Sz Pa Ln.
  remember 1000%nat as k eqn:Ek in Ln. assert (Ek' : k = (10 * 10 * 10)%nat) by (rewrite Ek; reflexivity). clear Ek. rename Ek' into Ek.
  destruct n_val as [Fn Vn]. fold n in Fn, Vn.
  destruct m_val as [Fm Vm]. fold m in Fm, Vm. clearbody m n.
  pose proof (bpow_gt_0 radix2 (-48)) as P0. pose proof (bpow_gt_0 radix2 (-700)) as P1.
  assert (P48 : bpow radix2 (-48) <= 4 / 10 ^ 15) by (simpl; lra).
  assert (P7 : bpow radix2 (-700) <= / 10 ^ 15).
  { apply (Rle_trans _ (bpow radix2 (-50))); [apply bpow_le; lia|simpl; lra]. }
  assert (Big : 10 ^ 10 <= bpow radix2 100).
  { apply (Rle_trans _ (bpow radix2 40)); [simpl; lra|apply bpow_le; lia]. }
  set (q := 1 + 1 * (/ 1000 + 3 * B2R n ^ 2 * 1000 + 2 * Rabs (B2R n))).
  assert (Q : 1 <= q <= 1.00623).
  { unfold q. rewrite Rabs_right by lra. assert (0 <= B2R n ^ 2 <= (1028 / 1000000) ^ 2) by (split; [apply pow_le; lra|apply pow_incr; lra]). simpl pow in *. lra. }
  assert (Qp : 0 <= q ^ k <= 510).
  { apply (pow_1000 k q 1.0641 1.8614 510); [exact Ek|lra| | |]; [|simpl; lra|simpl; lra].
    eapply Rle_trans; [apply pow_incr; split; [|apply Q]; lra|]. simpl. lra. }
  assert (Qe : 0 <= (q * (1 + bpow radix2 (-48))) ^ k <= 510).
  { assert (q * (1 + bpow radix2 (-48)) <= 1.006231).
    { assert (q * bpow radix2 (-48) <= 2 * (4 / 10 ^ 15)) by (apply Rmult_le_compat; lra). simpl (10 ^ 15) in *. lra. }
    assert (0 <= q * (1 + bpow radix2 (-48))) by (apply Rmult_le_pos; lra).
    apply (pow_1000 k _ 1.0641 1.8614 510); [exact Ek|assumption| | |]; [|simpl; lra|simpl; lra].
    eapply Rle_trans; [apply pow_incr; split; [|eassumption]; lra|]. simpl. lra. }
  assert (I : INR k = 1000) by (rewrite Ek, INR_IZR_INZ; reflexivity).
  set (c := 1 / Rabs (B2R m)). assert (C : c = 1 / 12) by (unfold c; rewrite Vm, Rabs_right by lra; reflexivity).
  set (B := q ^ k * (10 + INR k * c)).
  assert (HB : 0 <= B <= 48000).
  { unfold B. rewrite I, C. split; [apply Rmult_le_pos; lra|]. apply (Rle_trans _ (510 * (10 + 1000 * (1 / 12)))); [apply Rmult_le_compat_r; lra|lra]. }
  assert (HD : 0 <= drift q B c k <= / 10 ^ 4).
  { unfold drift. rewrite I. set (p := (q * (1 + bpow radix2 (-48))) ^ k) in *. set (d := bpow radix2 (-48) * (q * B + c) + bpow radix2 (-700)).
    assert (Qb : 0 <= q * B + c <= 48400).
    { assert (0 <= q * B) by (apply Rmult_le_pos; lra). assert (q * B <= 1.00623 * 48000) by (apply Rmult_le_compat; lra). lra. }
    assert (Dd : 0 <= d <= 1.945 / 10 ^ 10).
    { unfold d. split; [assert (0 <= bpow radix2 (-48) * (q * B + c)) by (apply Rmult_le_pos; lra); lra|].
      assert (bpow radix2 (-48) * (q * B + c) <= 4 / 10 ^ 15 * 48400) by (apply Rmult_le_compat; lra). simpl (10 ^ 15) in *. simpl (10 ^ 10). lra. }
    assert (p * d <= 510 * (1.945 / 10 ^ 10)) by (apply Rmult_le_compat; lra). assert (0 <= p * d) by (apply Rmult_le_pos; lra).
    simpl (10 ^ 10) in *. simpl (10 ^ 4). lra. }
  destruct (cwh_long lm w wr m n 0 x y z vx vy vz 1000 1 10 acts e er) as (e' & er' & s' & r' & X1 & X2 & X3 & X4 & X5); auto; try lra; try lia.
  - rewrite Vm, Rabs_right by lra. apply (Rle_trans _ (bpow radix2 0)); [apply bpow_le; lia|simpl; lra].
  - split; [exact Fn|]. rewrite Rabs_right by lra. apply (Rle_trans _ (bpow radix2 0)); [simpl; lra|apply bpow_le; lia].
  - rewrite Ln. fold q c. fold B. simpl (10 ^ 10) in Big. simpl (10 ^ 4) in HD. lra.
  - exists e', er', s', r'. split; [exact X1|]. split; [exact X2|]. split; [exact X3|]. split; [exact X4|].
    rewrite Ln in X5. fold q c in X5. fold B in X5. eapply tracks_scaled_mono; [lra|apply HD|exact X5].
Qed.
