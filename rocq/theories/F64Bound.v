(** Binary64 additions and multiplications of bounded numbers do not overflow; the low level
    controller on bounded states (C56). *)
From Coq Require Import ZArith Reals Bool List Lra Lia.
From Flocq Require Import Core.Core IEEE754.BinarySingleNaN.
From Verif Require Import PyBase Num NumOrdLemmas Float64 F64Wrap F16 F16Ctl SpecF16Ctl.
Import List ListNotations.
Local Open Scope R_scope.

Definition bounded (a : Z) (x : f64) : Prop :=
  is_finite x = true /\ Rabs (B2R x) <= bpow radix2 a.

Lemma fmt_bpow a : (-1000 <= a < 1000)%Z -> fmt64 (bpow radix2 a).
Proof.
  intros H. apply generic_format_bpow. unfold SpecFloat.fexp, SpecFloat.emin. lia.
Qed.

Lemma rnd_bounded a r : (-1000 <= a < 1000)%Z -> Rabs r <= bpow radix2 a ->
  Rabs (rnd64 r) <= bpow radix2 a.
Proof.
  intros Ha H. apply Rabs_le. apply Rabs_le_inv in H.
  apply (rnd64_bounds (- bpow radix2 a) (bpow radix2 a)); [apply fmt64_opp| |exact H];
    apply fmt_bpow, Ha.
Qed.

Lemma bpow_lt_emax a : (a < 1000)%Z -> bpow radix2 a < bpow radix2 1024.
Proof. intros H. apply bpow_lt. lia. Qed.

Lemma bounded_add a x y : (-1000 <= a < 999)%Z -> bounded a x -> bounded a y ->
  bounded (a + 1) (Bplus mode_NE x y).
Proof.
  intros Ha [Fx Bx] [Fy By].
  assert (E : Rabs (rnd64 (B2R x + B2R y)) <= bpow radix2 (a + 1)).
  { apply rnd_bounded; [lia|]. rewrite bpow_plus. change (bpow radix2 1) with 2.
    eapply Rle_trans; [apply Rabs_triang|]. lra. }
  destruct (plus64 x y Fx Fy) as [E1 E2].
  { eapply Rle_lt_trans; [exact E|]. apply bpow_lt_emax. lia. }
  split; [exact E2|]. rewrite E1. exact E.
Qed.

Lemma bounded_sub a x y : (-1000 <= a < 999)%Z -> bounded a x -> bounded a y ->
  bounded (a + 1) (Bminus mode_NE x y).
Proof.
  intros Ha [Fx Bx] [Fy By].
  assert (E : Rabs (rnd64 (B2R x - B2R y)) <= bpow radix2 (a + 1)).
  { apply rnd_bounded; [lia|]. rewrite bpow_plus. change (bpow radix2 1) with 2.
    eapply Rle_trans; [apply Rabs_triang|]. rewrite Rabs_Ropp. lra. }
  destruct (minus64 x y Fx Fy) as [E1 E2].
  { eapply Rle_lt_trans; [exact E|]. apply bpow_lt_emax. lia. }
  split; [exact E2|]. rewrite E1. exact E.
Qed.

Lemma bounded_mul a b x y : (-1000 <= a + b < 1000)%Z -> bounded a x -> bounded b y ->
  bounded (a + b) (Bmult mode_NE x y).
Proof.
  intros Ha [Fx Bx] [Fy By].
  assert (E : Rabs (rnd64 (B2R x * B2R y)) <= bpow radix2 (a + b)).
  { apply rnd_bounded; [lia|]. rewrite bpow_plus, Rabs_mult.
    apply Rmult_le_compat; try apply Rabs_pos; assumption. }
  pose proof (Bmult_correct 53 1024 _ _ mode_NE x y) as Q.
  rewrite Rlt_bool_true in Q.
  2:{ eapply Rle_lt_trans; [exact E|]. apply bpow_lt_emax. lia. }
  destruct Q as [E1 [E2 _]]. split; [rewrite E2, Fx, Fy; reflexivity|]. rewrite E1. exact E.
Qed.

Lemma bounded_opp a x : bounded a x -> bounded a (Bopp x).
Proof.
  intros [F B]. split; [rewrite is_finite_Bopp; exact F|]. rewrite B2R_Bopp, Rabs_Ropp. exact B.
Qed.

Lemma bounded_mono a b x : (a <= b)%Z -> bounded a x -> bounded b x.
Proof. intros H [F B]. split; [exact F|]. eapply Rle_trans; [exact B|]. apply bpow_le, H. Qed.

Lemma bounded_not_nan a x : bounded a x -> is_nan x = false.
Proof. intros [F _]. destruct x; try reflexivity; discriminate. Qed.

(** Concrete numbers up to 1024. *)
Lemma bounded_check (x : f64) : is_finite x = true -> Bleb (Babs x) (f64_of 1024 0) = true ->
  bounded 10 x.
Proof.
  intros F B. split; [exact F|].
  assert (F2 : is_finite (f64_of 1024 0) = true) by (vm_compute; reflexivity).
  rewrite Bleb_correct in B; [|rewrite is_finite_Babs; exact F|exact F2].
  rewrite B2R_Babs in B.
  assert (E : B2R (f64_of 1024 0) = bpow radix2 10).
  { assert (H : B2SF (f64_of 1024 0) = SpecFloat.S754_finite false 4503599627370496 (-42)) by (vm_compute; reflexivity).
    rewrite <- SF2R_B2SF, H. unfold SF2R, F2R. cbn -[bpow]. cbn. lra. }
  rewrite E in B. destruct (Rle_bool_spec (Rabs (B2R x)) (bpow radix2 10)); [assumption|discriminate].
Qed.

Section Ctl.
  Variable lm : libm.
  Local Hint Extern 0 (Num f64) => exact (F64 lm) : typeclass_instances.

  Lemma ldot_bounded (k x : list f64) : length k = 8%nat -> length x = 8%nat ->
    Forall (bounded 10) k -> Forall (bounded 501) x -> bounded 519 (ldot k x).
  Proof.
    intros Lk Lx Hk Hx. unfold ldot.
    assert (G : forall k x acc n, (n + length k <= 20)%nat -> length k = length x ->
      Forall (bounded 10) k -> Forall (bounded 501) x -> bounded (511 + Z.of_nat n) acc ->
      bounded (511 + Z.of_nat (n + length k))
        (fold_left (fun acc ab => nadd acc (nmul (nneg (fst ab)) (snd ab))) (combine k x) acc)).
    { clear. intros k. induction k as [|a k IH]; intros x acc n Hn L Hk Hx Ha.
      - cbn. replace (n + 0)%nat with n by lia. exact Ha.
      - destruct x as [|b x]; [discriminate|]. cbn [combine fold_left fst snd].
        apply Forall_cons_iff in Hk, Hx. destruct Hk as [Hk1 Hk], Hx as [Hx1 Hx]. cbn [length] in *.
        replace (n + S (length k))%nat with (S n + length k)%nat by lia.
        apply IH; try assumption; try lia.
        replace (511 + Z.of_nat (S n))%Z with ((511 + Z.of_nat n) + 1)%Z by lia.
        apply bounded_add; [lia|exact Ha|].
        apply (bounded_mono (10 + 501)); [lia|]. apply bounded_mul; [lia|apply bounded_opp; exact Hk1|exact Hx1]. }
    specialize (G k x n0 0%nat). rewrite Lk in G. apply G; try assumption; try lia.
    apply (bounded_mono 10); [lia|]. apply bounded_check; vm_compute; reflexivity.
  Qed.

  (** Entries read by the controller of magnitude at most 2^500. *)
  Lemma get_u_deg_bounded (u_ref st : list f64) :
    (16 <= length st)%nat -> (4 <= length u_ref)%nat ->
    bounded 500 (nth 3 u_ref n0) -> (forall i, In i ctrl_index -> bounded 500 (nth i st n0)) ->
    exists xc ud, get_u_deg u_ref st = Ok (xc, ud) /\
      Forall2 (fun lh v => nleb (fst lh) v = true /\ nleb v (snd lh) = true) ctrl_limits ud.
  Proof.
    intros Ls Lu Bu Bs.
    assert (E : exists xc ud, get_u_deg u_ref st = Ok (xc, ud) /\ Forall (fun v : f64 => is_nan v = false) ud).
    { unfold get_u_deg.
      replace (Nat.ltb (length st) 13) with false by (symmetry; apply Nat.ltb_ge; lia).
      replace (Nat.ltb (length st) 16) with false by (symmetry; apply Nat.ltb_ge; lia).
      replace (Nat.ltb (length u_ref) 4) with false by (symmetry; apply Nat.ltb_ge; lia).
      do 2 eexists. split; [reflexivity|].
      do 16 (destruct st as [|? st]; [cbn in Ls; lia|]).
      unfold ctrl_index in *.
      set (xc := map _ [1; 7; 13; 2; 6; 8; 14; 15]%nat).
      assert (Hxc : Forall (bounded 501) xc).
      { unfold xc, xequil. cbn [map firstn skipn combine app fst snd]. unfold nth0. cbn [nth].
        repeat apply Forall_cons; try apply Forall_nil;
        try (apply (bounded_mono (500 + 1)); [lia|]; apply bounded_sub; [lia| |
             apply (bounded_mono 10); [lia|]; apply bounded_check; vm_compute; reflexivity]);
        try (apply (bounded_mono 500); [lia|]).
        - apply (Bs 1%nat). cbn. tauto.
        - apply (Bs 7%nat). cbn. tauto.
        - apply (Bs 13%nat). cbn. tauto.
        - apply (Bs 2%nat). cbn. tauto.
        - apply (Bs 6%nat). cbn. tauto.
        - apply (Bs 8%nat). cbn. tauto.
        - apply (Bs 14%nat). cbn. tauto.
        - apply (Bs 15%nat). cbn. tauto. }
      assert (Lxc : length xc = 8%nat) by reflexivity. clearbody xc.
      assert (S : forall v lo hi : f64, is_nan lo = false -> is_nan hi = false -> Bleb lo hi = true ->
                  is_nan v = false -> is_nan (py_max (py_min v hi) lo) = false).
      { intros v lo hi H1 H2 H3 H4. destruct (@sat_range f64 (F64 lm) (F64_ord lm) v lo hi H1 H2 H3) as [H _].
        change (is_nan (py_max (py_min v hi) lo) = is_nan v) in H. rewrite H. exact H4. }
      assert (A : forall v c : f64, bounded 519 v -> is_finite c = true -> Bleb (Babs c) (f64_of 1024 0) = true ->
                  is_nan (nadd v c) = false).
      { intros v c Hv Fc Bc. apply (bounded_not_nan (519 + 1)). apply bounded_add; [lia|exact Hv|].
        apply (bounded_mono 10); [lia|]. apply bounded_check; assumption. }
      unfold K_lqr, uequil, ctrl_limits. cbn [map combine fst snd].
      repeat (apply Forall_cons || apply Forall_nil); (apply S; [vm_compute; reflexivity..|]);
        (apply A; [|vm_compute; reflexivity..]).
      - apply (bounded_mono 500); [lia|]. exact Bu.
      - apply ldot_bounded; try assumption; try reflexivity.
        repeat (apply Forall_cons || apply Forall_nil); apply bounded_check; vm_compute; reflexivity.
      - apply ldot_bounded; try assumption; try reflexivity.
        repeat (apply Forall_cons || apply Forall_nil); apply bounded_check; vm_compute; reflexivity.
      - apply ldot_bounded; try assumption; try reflexivity.
        repeat (apply Forall_cons || apply Forall_nil); apply bounded_check; vm_compute; reflexivity. }
    destruct E as [xc [ud [E Hn]]]. exists xc, ud. split; [exact E|].
    pose proof (get_u_deg_limited u_ref st xc ud (lims_f64 lm) E) as H.
    clear E. revert Hn. induction H; intros Hn; [constructor|].
    apply Forall_cons_iff in Hn. destruct Hn as [Hn1 Hn]. constructor; [|apply IHForall2; exact Hn].
    destruct H as [H|H]; [|exact H]. change (is_nan y = true) in H. congruence.
  Qed.
End Ctl.

(** * In terms of real limits *)
Lemma leb_bounds (lo v hi : f64) : is_finite lo = true -> is_finite hi = true ->
  Bleb lo v = true -> Bleb v hi = true -> is_finite v = true /\ B2R lo <= B2R v <= B2R hi.
Proof.
  intros Fl Fh H1 H2.
  assert (Fv : is_finite v = true).
  { destruct v as [s|s| |s m e B]; try reflexivity.
    - destruct s; [destruct lo as [|[|]| |]|destruct hi as [|[|]| |]]; try discriminate;
        destruct s; discriminate.
    - destruct lo as [|[|]| |[|]]; discriminate. }
  split; [exact Fv|]. rewrite Bleb_correct in H1, H2 by assumption.
  destruct (Rle_bool_spec (B2R lo) (B2R v)); [|discriminate].
  destruct (Rle_bool_spec (B2R v) (B2R hi)); [|discriminate]. split; assumption.
Qed.

Section Limits.
  Variable lm : libm.
  Local Hint Extern 0 (Num f64) => exact (F64 lm) : typeclass_instances.

  Ltac lit := match goal with |- B2R ?x = _ =>
    let v := eval vm_compute in (B2SF x) in
    assert (E : B2SF x = v) by (vm_compute; reflexivity);
    rewrite <- SF2R_B2SF, E; unfold SF2R, F2R; cbn; lra end.

  Lemma lim_values : map (fun lh => (B2R (fst lh), B2R (snd lh))) (ctrl_limits (T := f64)) = command_limits.
  Proof.
    unfold ctrl_limits, command_limits. cbn [map fst snd].
    repeat (apply f_equal2; [apply f_equal2; lit|]). reflexivity.
  Qed.
  Lemma lim_finite : Forall (fun lh => is_finite (fst lh) = true /\ is_finite (snd lh) = true)
    (ctrl_limits (T := f64)).
  Proof. repeat constructor; vm_compute; reflexivity. Qed.

  Lemma limits_R (P : f64 -> Prop) (ls : list (f64 * f64)) ud :
    Forall (fun lh => is_finite (fst lh) = true /\ is_finite (snd lh) = true) ls ->
    Forall2 (fun lh v => P v \/ nleb (fst lh) v = true /\ nleb v (snd lh) = true) ls ud ->
    Forall2 (fun lh v => P v \/ inside lh v) (map (fun lh => (B2R (fst lh), B2R (snd lh))) ls) ud.
  Proof.
    intros Hf H. induction H as [|lh v ls ud H _ IH]; [constructor|].
    apply Forall_cons_iff in Hf. destruct Hf as [[F1 F2] Hf]. cbn [map].
    constructor; [|apply IH; exact Hf]. destruct H as [H|[H1 H2]]; [left; exact H|right].
    apply leb_bounds; assumption.
  Qed.

  Lemma controller_limits (u_ref st xc ud : list f64) : get_u_deg u_ref st = Ok (xc, ud) ->
    Forall2 (fun lh v => is_nan v = true \/ inside lh v) command_limits ud.
  Proof.
    intros E. rewrite <- lim_values. apply limits_R; [exact lim_finite|].
    exact (get_u_deg_limited u_ref st xc ud (lims_f64 lm) E).
  Qed.

  Lemma moderate_bounded v : moderate v -> bounded 500 v.
  Proof.
    intros [F B]. split; [exact F|]. rewrite <- (IZR_Zpower radix2) by lia.
    replace (IZR (radix2 ^ 500)) with (2 ^ 500)%R; [exact B|].
    change (radix_val radix2) with 2%Z. rewrite (pow_IZR 2 500). reflexivity.
  Qed.

  Lemma controller_bounded (u_ref st : list f64) :
    (16 <= length st)%nat -> (4 <= length u_ref)%nat ->
    moderate (nth 3 u_ref (B754_nan : f64)) ->
    (forall i, In i [1; 7; 13; 2; 6; 8; 14; 15]%nat -> moderate (nth i st (B754_nan : f64))) ->
    exists xc ud, get_u_deg u_ref st = Ok (xc, ud) /\ Forall2 inside command_limits ud.
  Proof.
    intros Ls Lu Bu Bs.
    destruct (get_u_deg_bounded lm u_ref st Ls Lu) as [xc [ud [E H]]].
    - apply moderate_bounded. rewrite (nth_indep (A := f64) _ _ B754_nan) by lia. exact Bu.
    - intros i Hi. apply moderate_bounded. rewrite (nth_indep (A := f64) _ _ B754_nan); [apply Bs, Hi|].
      unfold ctrl_index in Hi. cbn in Hi. lia.
    - exists xc, ud. split; [exact E|].
      assert (G : Forall2 (fun lh v => False \/ inside lh v) command_limits ud).
      { rewrite <- lim_values. apply (limits_R (fun _ => False)); [exact lim_finite|].
        clear - H. induction H; constructor; auto. }
      clear - G. induction G; constructor; tauto.
  Qed.
End Limits.
