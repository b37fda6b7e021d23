(** Numbers for C117. *)
From Coq Require Import String ZArith Reals Bool List Lra Lia.
From Flocq Require Import Core.Core IEEE754.BinarySingleNaN.
From Verif Require Import PyBase Num Arr BaseModel Cwh Spec SpecBase SpecCwh XReal XTac Float64 SpecRound RoundRun SpecLong RoundLong RoundLongEx FlyEx SpecOrbit OrbitRun.
Import List ListNotations.
Local Open Scope R_scope.

Lemma n_low : 1026 / 1000000 <= B2R (fl 1027 1000000).
Proof.
  assert (V : is_finite (fl 1027 1000000) = true /\ B2R (fl 1027 1000000) = F2R (Float radix2 4736201540924927 (-62)))
    by (eapply fl_val; [vm_compute; reflexivity|reflexivity]).
  destruct V as [_ V]. rewrite V. unfold F2R. cbn. lra.
Qed.

Lemma orbit_ex (lm : libm) (w : world f64) (x y z vx vy vz : f64) acts e :
  let f := fun a : f64 => nf32 (Num := F64 lm) a in
  let m := fl 12 1 in let n := fl 1027 1000000 in
  let s0 := map (fun a => B2R (f a)) [x; y; z; vx; vy; vz] in
  cwh_spacecraft (N := F64 lm) m n 0 "Euler" x y z vx vy vz = Ok e ->
  Forall (fun a => is_finite (f a) = true) [x; y; z; vx; vy; vz] ->
  sized 1000 (1 / 10) s0 -> Forall (proper (1 / 100)) acts -> length acts = 1000%nat ->
  exists e' s', run (N := F64 lm) w e (acts64 acts) = Ok e' /\ e_state e' = A1 s' /\
    tracks_scaled 1000 (/ 10 ^ 4) s' (orbit 12 (B2R n) s0 acts).
Proof.
  intros f m n s0 Ee F0 Sz Pa Ln.
  remember 1000%nat as k eqn:Ek in Ln. assert (Ek' : k = (10 * 10 * 10)%nat) by (rewrite Ek; reflexivity). clear Ek. rename Ek' into Ek.
  destruct n_val as [Fn Vn]. pose proof n_low as Vl. fold n in Fn, Vn, Vl. destruct m_val as [Fm Vm]. fold m in Fm, Vm. clearbody m n.
  pose proof (bpow_gt_0 radix2 (-48)) as P0. pose proof (bpow_gt_0 radix2 (-700)) as P1.
  assert (P48 : bpow radix2 (-48) <= 4 / 10 ^ 15) by (simpl; lra).
  assert (P7 : bpow radix2 (-700) <= / 10 ^ 15).
  { apply (Rle_trans _ (bpow radix2 (-50))); [apply bpow_le; lia|simpl; lra]. }
  assert (Big : 10 ^ 10 <= bpow radix2 100).
  { apply (Rle_trans _ (bpow radix2 40)); [simpl; lra|apply bpow_le; lia]. }
  set (N := B2R n) in *.
  assert (NN : 0 <= N ^ 2 <= (1028 / 1000000) ^ 2) by (split; [apply pow_le; lra|apply pow_incr; lra]).
  set (H := 1 / 100). assert (H2 : H ^ 2 = 1 / 10000) by (unfold H; field).
  set (q := 1 + H * (/ 1000 + 3 * N ^ 2 * 1000 + 2 * Rabs N)).
  assert (Q : 1 <= q <= 1.0000623).
  { unfold q, H. rewrite Rabs_right by lra. simpl pow in *. lra. }
  assert (Bd : 0 <= bend N 1000 <= 1.5 / 10 ^ 5).
  { unfold bend. rewrite Rabs_right by lra.
    assert (I1 : 0 <= 5 / (N * 1000) <= 4.9).
    { assert (0 < / (N * 1000)) by (apply Rinv_0_lt_compat; lra). split; [unfold Rdiv; lra|].
      apply (Rmult_le_reg_r (N * 1000)); [lra|]. unfold Rdiv. rewrite Rmult_assoc, Rinv_l by lra. lra. }
    split; [apply Rmult_le_pos; lra|]. eapply Rle_trans; [apply (Rmult_le_compat _ ((1028 / 1000000) ^ 2) _ 14); lra|]. simpl. lra. }
  assert (Kk : 0 <= kick (B2R m) N 1000 <= 8.88 / 10 ^ 4).
  { unfold kick. rewrite Vm, (Rabs_right N), (Rabs_right 12) by lra. simpl (10 ^ 4). split; lra. }
  set (p := q + H ^ 2 * bend N 1000). assert (Pp : 1 <= p <= 1.0000624).
  { unfold p. rewrite H2. simpl (10 ^ 5) in Bd. lra. }
  set (c := H / Rabs (B2R m)). assert (C : c = 1 / 1200) by (unfold c, H; rewrite Vm, Rabs_right by lra; lra).
  set (d := c + H ^ 2 * kick (B2R m) N 1000). assert (Dd : 0 <= d <= 8.335 / 10 ^ 4).
  { unfold d. rewrite C, H2. simpl (10 ^ 4) in *. lra. }
  assert (I : INR k = 1000) by (rewrite Ek, INR_IZR_INZ; reflexivity).
  assert (Pw : forall t, 0 <= t <= 1.00006241 -> 0 <= t ^ k <= 1.0646).
  { intros t Ht. apply (pow_1000 k t 1.000625 1.00627 1.0646); [exact Ek|lra| | |]; [|simpl; lra|simpl; lra].
    eapply Rle_trans; [apply pow_incr; exact Ht|]. simpl. lra. }
  pose proof (Pw q ltac:(lra)) as Qk. pose proof (Pw p ltac:(lra)) as Pk.
  assert (Qe : 0 <= (q * (1 + bpow radix2 (-48))) ^ k <= 1.0646).
  { apply Pw. split; [apply Rmult_le_pos; lra|].
    assert (q * bpow radix2 (-48) <= 2 * (4 / 10 ^ 15)) by (apply Rmult_le_compat; lra). simpl (10 ^ 15) in *. lra. }
  set (B := q ^ k * (1 / 10 + INR k * c)). set (D := p ^ k * (1 / 10 + INR k * d)).
  assert (HB : 0 <= B <= 1).
  { unfold B. rewrite I, C. split; [apply Rmult_le_pos; lra|]. eapply Rle_trans; [apply (Rmult_le_compat_r _ _ 1.0646); lra|lra]. }
  assert (HD : 0 <= D <= 1).
  { unfold D. rewrite I. simpl (10 ^ 4) in Dd. split; [apply Rmult_le_pos; lra|]. eapply Rle_trans; [apply (Rmult_le_compat _ 1.0646 _ 0.9336); lra|lra]. }
  assert (Dr : 0 <= drift q B c k <= / 10 ^ 7).
  { unfold drift. rewrite I. set (pw := (q * (1 + bpow radix2 (-48))) ^ k) in *. set (dd := bpow radix2 (-48) * (q * B + c) + bpow radix2 (-700)).
    assert (qB : 0 <= q * B + c <= 3).
    { assert (0 <= q * B) by (apply Rmult_le_pos; lra). assert (q * B <= 2 * 1) by (apply Rmult_le_compat; lra). lra. }
    assert (Hd : 0 <= dd <= 2 / 10 ^ 14).
    { unfold dd. split; [assert (0 <= bpow radix2 (-48) * (q * B + c)) by (apply Rmult_le_pos; lra); lra|].
      assert (bpow radix2 (-48) * (q * B + c) <= 4 / 10 ^ 15 * 3) by (apply Rmult_le_compat; lra). simpl (10 ^ 15) in *. simpl (10 ^ 14). lra. }
    assert (pw * dd <= 1.0646 * (2 / 10 ^ 14)) by (apply Rmult_le_compat; lra). assert (0 <= pw * dd) by (apply Rmult_le_pos; lra).
    simpl (10 ^ 14) in *. simpl (10 ^ 7). lra. }
  assert (Tr : q ^ k * (INR k * (H ^ 2 * (bend N 1000 * D + kick (B2R m) N 1000))) <= 9.7 / 10 ^ 5).
  { rewrite I, H2. simpl (10 ^ 5) in *. simpl (10 ^ 4) in *.
    assert (bD : 0 <= bend N 1000 * D <= 1.5 / 100000 * 1) by (split; [apply Rmult_le_pos; lra|apply Rmult_le_compat; lra]).
    eapply Rle_trans; [apply (Rmult_le_compat _ 1.0646 _ (9.04 / 100000)); lra|]. lra. }
  destruct (cwh_orbit lm w m n 0 x y z vx vy vz 1000 H (1 / 10) acts e) as (e' & s' & X1 & X2 & X3); auto; try lra; try lia.
  - rewrite Vm, Rabs_right by lra. apply (Rle_trans _ (bpow radix2 0)); [apply bpow_le; lia|simpl; lra].
  - split; [exact Fn|]. fold N. rewrite Rabs_right by lra. apply (Rle_trans _ (bpow radix2 0)); [simpl; lra|apply bpow_le; lia].
  - fold N. lra.
  - unfold H. lra.
  - rewrite Ln. fold N. fold q c. fold B. simpl (10 ^ 10) in Big. simpl (10 ^ 7) in Dr. lra.
  - exists e', s'. split; [exact X1|]. split; [exact X2|].
    rewrite Ln in X3. fold N in X3. fold q c in X3. fold B in X3. fold p d in X3. fold D in X3. fold f s0 in X3. rewrite Vm in X3 at 2.
    eapply tracks_scaled_mono; [lra| |exact X3]. rewrite ?Vm in Tr. rewrite ?Vm. simpl (10 ^ 7) in Dr. simpl (10 ^ 5) in Tr. simpl (10 ^ 4). lra.
Qed.
