(** Closed and bounded relative orbits of the Clohessy-Wiltshire equations. *)
From Coq Require Import String List Bool Arith ZArith Lia Reals Lra.
From Coquelicot Require Import Coquelicot.
From Verif Require Import PyBase Num Arr BaseModel XReal XTac Cwh SpecRk SpecCwh CwhLemmas SpecFlow FlowLemmas.
Import List ListNotations.
Local Open Scope R_scope.

Lemma forced_zero n s t : length s = 6%nat -> cw_forced n 0 0 0 s t = cw_flow n s t.
Proof.
  intros L. destruct (len6 s L) as (x & y & z & vx & vy & vz & ->). rewrite forced_eq. cbv [cw_flow].
  fin_list; unfold Rdiv; ring.
Qed.
Lemma flow_len n s t : length s = 6%nat -> length (cw_flow n s t) = 6%nat.
Proof. intros L. destruct (len6 s L) as (x & y & z & vx & vy & vz & ->). reflexivity. Qed.
Lemma flow_semigroup n s a b : n <> 0 -> length s = 6%nat -> cw_flow n s (a + b) = cw_flow n (cw_flow n s a) b.
Proof.
  intros Hn L. rewrite <- !forced_zero; auto; [apply (forced_semigroup Fin); auto|].
  apply flow_len; auto.
Qed.
Lemma flow_period n x y z vx vy vz : n <> 0 ->
  cw_flow n [x; y; z; vx; vy; vz] (2 * PI / n) = [x; y - 6 * PI / n * (vy + 2 * n * x); z; vx; vy; vz].
Proof.
  intros Hn. cbv [cw_flow]. replace (n * (2 * PI / n)) with (2 * PI) by (field; auto).
  rewrite sin_2PI, cos_2PI. fin_list; field; auto.
Qed.

Section X.
  Variable r32 : R -> xr.
  Local Hint Extern 0 (Num xr) => exact (XR r32) : typeclass_instances.
  Variables (m n : R) (samples : Z) (method : string) (d : dyn xr) (sol : R -> list R).
  Hypothesis Hm : m <> 0.
  Hypothesis Hn : n <> 0.
  Hypothesis Ed : cwh_dyn (Fin m) (Fin n) samples method = Ok d.
  Hypothesis L0 : length (sol 0) = 6%nat.
  Hypothesis S : solves d (A1 (map Fin [0; 0; 0])) sol.

  Lemma sol_flow t : sol t = cw_flow n (sol 0) t.
  Proof. exact (cwh_unique r32 m n samples method d sol Hm Hn Ed L0 S t). Qed.
  Lemma sol_len t : length (sol t) = 6%nat.
  Proof. rewrite sol_flow. apply flow_len, L0. Qed.
  Lemma sol_shift t h : sol (t + h) = cw_flow n (sol t) h.
  Proof. rewrite (sol_flow (t + h)), (sol_flow t). apply flow_semigroup; auto. Qed.

  (** What one orbital period changes. *)
  Lemma drift_per_orbit t : exists x y z vx vy vz, sol t = [x; y; z; vx; vy; vz] /\
    sol (t + 2 * PI / n) = [x; y - 6 * PI / n * (vy + 2 * n * x); z; vx; vy; vz].
  Proof.
    rewrite sol_shift. destruct (len6 _ (sol_len t)) as (x & y & z & vx & vy & vz & E).
    exists x, y, z, vx, vy, vz. split; [exact E|]. rewrite E. apply flow_period, Hn.
  Qed.

  Lemma closed_iff : (forall t, sol (t + 2 * PI / n) = sol t) <-> nth 4 (sol 0) 0 = - 2 * n * nth 0 (sol 0) 0.
  Proof.
    assert (P : PI / n <> 0).
    { pose proof PI_RGT_0. apply Rmult_integral_contrapositive_currified; [lra|apply Rinv_neq_0_compat; auto]. }
    destruct (len6 _ L0) as (x & y & z & vx & vy & vz & E).
    split.
    - intros H. specialize (H 0). destruct (drift_per_orbit 0) as (x' & y' & z' & vx' & vy' & vz' & E1 & E2).
      rewrite H, E1 in E2. injection E2 as E2. rewrite E1. cbn [nth].
      assert (Q : PI / n * (vy' + 2 * n * x') = 0) by (unfold Rdiv in *; lra).
      apply Rmult_integral in Q. destruct Q; [contradiction|lra].
    - intros H t. destruct (drift_per_orbit t) as (x' & y' & z' & vx' & vy' & vz' & E1 & E2).
      rewrite E2, E1. rewrite E in H. cbn [nth] in H.
      assert (K : vy' + 2 * n * x' = 0).
      { pose proof (sol_flow t) as Q. rewrite E, E1 in Q. cbv [cw_flow] in Q. injection Q as -> _ _ _ -> _.
        rewrite H. field. auto. }
      rewrite K. fin_list; ring.
  Qed.

  Lemma harmonic_bound a b c t : Rabs (a + b * sin (n * t) + c * cos (n * t)) <= Rabs a + Rabs b + Rabs c.
  Proof.
    eapply Rle_trans; [apply Rabs_triang|]. apply Rplus_le_compat; [eapply Rle_trans; [apply Rabs_triang|]; apply Rplus_le_compat; [lra|]|];
    rewrite Rabs_mult; match goal with |- ?u * _ <= _ => rewrite <- (Rmult_1_r u) at 2 end;
    (apply Rmult_le_compat_l; [apply Rabs_pos|]); apply Rabs_le; [apply SIN_bound|apply COS_bound].
  Qed.

  Lemma drift_orbits (k : nat) : nth 1 (sol (INR k * (2 * PI / n))) 0 =
    nth 1 (sol 0) 0 - INR k * (6 * PI / n * (nth 4 (sol 0) 0 + 2 * n * nth 0 (sol 0) 0)) /\
    nth 4 (sol (INR k * (2 * PI / n))) 0 = nth 4 (sol 0) 0 /\ nth 0 (sol (INR k * (2 * PI / n))) 0 = nth 0 (sol 0) 0.
  Proof.
    induction k as [|k (IH1 & IH2 & IH3)].
    - cbn [INR]. rewrite !Rmult_0_l. repeat split; ring.
    - rewrite S_INR. replace ((INR k + 1) * (2 * PI / n)) with (INR k * (2 * PI / n) + 2 * PI / n) by (field; auto).
      destruct (drift_per_orbit (INR k * (2 * PI / n))) as (x & y & z & vx & vy & vz & E1 & E2).
      rewrite E2, E1 in *. cbn [nth] in *. rewrite IH1, IH2, IH3. repeat split; ring.
  Qed.

  Lemma bounded_iff : (exists B, forall t i, Rabs (nth i (sol t) 0) <= B) <-> nth 4 (sol 0) 0 = - 2 * n * nth 0 (sol 0) 0.
  Proof.
    split.
    - intros (B & HB). destruct (Req_dec (nth 4 (sol 0) 0 + 2 * n * nth 0 (sol 0) 0) 0) as [Z|Z]; [lra|exfalso].
      set (c := 6 * PI / n * (nth 4 (sol 0) 0 + 2 * n * nth 0 (sol 0) 0)).
      assert (C : c <> 0).
      { pose proof PI_RGT_0. unfold c, Rdiv. apply Rmult_integral_contrapositive_currified; [|exact Z].
        apply Rmult_integral_contrapositive_currified; [lra|]. apply Rinv_neq_0_compat; auto. }
      assert (Cp : 0 < Rabs c) by (apply Rabs_pos_lt; auto).
      assert (B0 : 0 <= B) by (eapply Rle_trans; [apply Rabs_pos|apply (HB 0 0%nat)]).
      destruct (nfloor_ex ((2 * B + 1) / Rabs c)) as (k & K1 & K2).
      { apply Rmult_le_pos; [lra|left; apply Rinv_0_lt_compat; auto]. }
      pose proof (drift_orbits (Datatypes.S k)) as (D & _ & _). fold c in D.
      pose proof (HB (INR (Datatypes.S k) * (2 * PI / n)) 1%nat) as H1. pose proof (HB 0 1%nat) as H2.
      assert (Q : INR (Datatypes.S k) * c = nth 1 (sol 0) 0 - nth 1 (sol (INR (Datatypes.S k) * (2 * PI / n))) 0) by lra.
      assert (Q1 : Rabs (INR (Datatypes.S k) * c) <= 2 * B).
      { rewrite Q. unfold Rminus. eapply Rle_trans; [apply Rabs_triang|]. rewrite Rabs_Ropp. lra. }
      rewrite Rabs_mult, (Rabs_pos_eq (INR _)) in Q1 by apply pos_INR. rewrite S_INR in Q1.
      assert (Q2 : (2 * B + 1) / Rabs c * Rabs c < (INR k + 1) * Rabs c) by (apply Rmult_lt_compat_r; auto).
      replace ((2 * B + 1) / Rabs c * Rabs c) with (2 * B + 1) in Q2 by (field; lra). lra.
    - intros H. destruct (len6 _ L0) as (x & y & z & vx & vy & vz & E). rewrite E in H. cbn [nth] in H. subst vy.
      set (co := [(0, vx / n, x); (y - 2 / n * vx, - 2 * x, 2 / n * vx); (0, vz / n, z);
                  (0, - n * x, vx); (0, - 2 * vx, - 2 * n * x); (0, - n * z, vz)]).
      exists (fold_right Rplus 0 (map (fun q : R * R * R => Rabs (fst (fst q)) + Rabs (snd (fst q)) + Rabs (snd q)) co)).
      intros t i. rewrite sol_flow, E. cbv [cw_flow]. cbn [co map fold_right fst snd].
      assert (P : forall a b c : R, 0 <= Rabs a + Rabs b + Rabs c)
        by (intros a b c; pose proof (Rabs_pos a); pose proof (Rabs_pos b); pose proof (Rabs_pos c); lra).
      assert (Hs : forall a b c, In (a, b, c) co -> 0 <= Rabs a + Rabs b + Rabs c) by (intros; apply P).
      pose proof (P 0 (vx / n) x) as P0. pose proof (P (y - 2 / n * vx) (- 2 * x) (2 / n * vx)) as P1.
      pose proof (P 0 (vz / n) z) as P2. pose proof (P 0 (- n * x) vx) as P3.
      pose proof (P 0 (- 2 * vx) (- 2 * n * x)) as P4. pose proof (P 0 (- n * z) vz) as P5.
      destruct i as [|[|[|[|[|[|i]]]]]]; cbn [nth].
      + pose proof (harmonic_bound 0 (vx / n) x t) as Q. eapply Rle_trans; [right|eapply Rle_trans; [exact Q|]].
        * f_equal. field. auto.
        * lra.
      + pose proof (harmonic_bound (y - 2 / n * vx) (- 2 * x) (2 / n * vx) t) as Q. eapply Rle_trans; [right|eapply Rle_trans; [exact Q|]].
        * f_equal. field. auto.
        * lra.
      + pose proof (harmonic_bound 0 (vz / n) z t) as Q. eapply Rle_trans; [right|eapply Rle_trans; [exact Q|]].
        * f_equal. field. auto.
        * lra.
      + pose proof (harmonic_bound 0 (- n * x) vx t) as Q. eapply Rle_trans; [right|eapply Rle_trans; [exact Q|]].
        * f_equal. field. 
        * lra.
      + pose proof (harmonic_bound 0 (- 2 * vx) (- 2 * n * x) t) as Q. eapply Rle_trans; [right|eapply Rle_trans; [exact Q|]].
        * f_equal. field. 
        * lra.
      + pose proof (harmonic_bound 0 (- n * z) vz t) as Q. eapply Rle_trans; [right|eapply Rle_trans; [exact Q|]].
        * f_equal. field. 
        * lra.
      + destruct i; rewrite Rabs_R0 in *; lra.
  Qed.
End X.
