(** Binary64 runs of the CWH spacecraft against the Clohessy-Wiltshire motion (C117). *)
From Coq Require Import String ZArith Reals Bool List Lra Lia.
From Coquelicot Require Import Coquelicot.
From Flocq Require Import Core.Core IEEE754.BinarySingleNaN.
From Verif Require Import PyBase Num Arr BaseModel Cwh Spec SpecBase SpecCwh SpecFlow FlowLemmas BaseLemmas XReal CwhLemmas ConvLemmas
  Float64 SpecRound RoundRun SpecLong RoundLong SpecOrbit.
Import List ListNotations.
Local Open Scope R_scope.

Lemma gam_bound a : 0 <= 1 - cos a <= a ^ 2 / 2.
Proof.
  replace a with (2 * (a / 2)) at 1 2 by field. rewrite cos_2a_sin.
  pose proof (sin_close (a / 2) 0) as S. rewrite sin_0, !Rminus_0_r in S.
  assert (Q : sin (a / 2) * sin (a / 2) <= (a / 2) * (a / 2)).
  { apply Rsqr_le_abs_1 in S. exact S. }
  assert (0 <= sin (a / 2) * sin (a / 2)) by nra. split; [lra|]. simpl. lra.
Qed.
Lemma sig_bound a : Rabs (a - sin a) <= a ^ 2.
Proof.
  destruct (MVT_gen (fun t => t - sin t) 0 a (fun t => 1 - cos t)) as (c & D & E).
  - intros x _. auto_derive; [exact I|ring].
  - intros x _. apply continuity_pt_minus; [apply derivable_continuous_pt, derivable_pt_id|apply continuity_sin].
  - rewrite sin_0, !Rminus_0_r in E. rewrite E, Rabs_mult.
    pose proof (cos_close 0 c) as Cc. rewrite cos_0, Rminus_0_l, Rabs_Ropp in Cc.
    assert (Rabs c <= Rabs a). { unfold Rmin, Rmax in D. destruct (Rle_dec 0 a); unfold Rabs; destruct (Rcase_abs c), (Rcase_abs a); lra. }
    replace (a ^ 2) with (Rabs a * Rabs a) by (rewrite <- Rabs_mult, Rabs_right; [ring|nra]).
    apply Rmult_le_compat_r; [apply Rabs_pos|lra].
Qed.

(** One exact Euler step with accelerations. *)
Definition estep (n ax ay az h : R) (s : list R) : list R :=
  match s with
  | [x; y; z; vx; vy; vz] => [x + h * vx; y + h * vy; z + h * vz; vx + h * (3 * n ^ 2 * x + 2 * n * vy + ax); vy + h * (- 2 * n * vx + ay); vz + h * (- n ^ 2 * z + az)]
  | _ => s
  end.
Definition near (L E : R) (a b : list R) : Prop :=
  Forall2 (fun x t => Rabs (x - t) <= L * E) (firstn 3 a) (firstn 3 b) /\ Forall2 (fun x t => Rabs (x - t) <= E) (skipn 3 a) (skipn 3 b).

Lemma tri2 a b A B : Rabs a <= A -> Rabs b <= B -> Rabs (a + b) <= A + B.
Proof. intros. eapply Rle_trans; [apply Rabs_triang|lra]. Qed.
Lemma mul2 a b A B : Rabs a <= A -> Rabs b <= B -> Rabs (a * b) <= A * B.
Proof. intros. rewrite Rabs_mult. apply Rmult_le_compat; auto using Rabs_pos. Qed.

Ltac pos := first [lra | apply Rmult_le_pos; pos].
Ltac six s := destruct s as [|?x [|?y [|?z [|?vx [|?vy [|?vz [|? ?]]]]]]]; try discriminate.
Ltac opens := repeat match goal with H : Forall2 _ (_ :: _) (_ :: _) |- _ => inversion H; clear H; subst | H : Forall2 _ [] [] |- _ => clear H
  | H : Forall _ (_ :: _) |- _ => inversion H; clear H; subst | H : Forall _ [] |- _ => clear H end.

Section G.
  Variables (n L H : R).
  Hypothesis (HL : 1 <= L) (H0 : 0 <= H) (Hn : n <> 0).
  Let k := / L + 3 * n ^ 2 * L + 2 * Rabs n.
  Let q := 1 + H * k.

  Lemma kL E : 0 <= E -> E <= k * (L * E).
  Proof.
    intros HE. assert (LL : / L * L = 1) by (apply Rinv_l; lra).
    replace (k * (L * E)) with (/ L * L * E + (n ^ 2 * (3 * L * (L * E)) + Rabs n * (2 * (L * E)))) by (unfold k; ring). rewrite LL.
    assert (0 <= L * E) by (apply Rmult_le_pos; lra). pose proof (Rabs_pos n). assert (0 <= n ^ 2) by nra.
    assert (0 <= n ^ 2 * (3 * L * (L * E))) by pos. assert (0 <= Rabs n * (2 * (L * E))) by (apply Rmult_le_pos; lra). lra.
  Qed.

  (** The linear part of an Euler step grows by at most [q]. *)
  Lemma lin (h x y z vx vy vz E : R) : Rabs h <= H -> 0 <= E -> Rabs x <= L * E -> Rabs y <= L * E -> Rabs z <= L * E ->
    Rabs vx <= E -> Rabs vy <= E -> Rabs vz <= E ->
    Rabs (x + h * vx) <= L * (q * E) /\ Rabs (y + h * vy) <= L * (q * E) /\ Rabs (z + h * vz) <= L * (q * E) /\
    Rabs (vx + h * (3 * n ^ 2 * x + 2 * n * vy)) <= q * E /\ Rabs (vy + h * (- 2 * n * vx)) <= q * E /\ Rabs (vz + h * (- n ^ 2 * z)) <= q * E.
  Proof.
    intros Hh E0 X Y Z VX VY VZ.
    assert (n2 : 0 <= n ^ 2) by nra. pose proof (Rabs_pos n) as n1. assert (Li : 0 < / L) by (apply Rinv_0_lt_compat; lra).
    assert (i1 : 0 <= / L * E) by (apply Rmult_le_pos; lra). assert (i2 : 0 <= n ^ 2 * L * E) by pos.
    assert (i3 : 0 <= Rabs n * E) by (apply Rmult_le_pos; lra).
    assert (P : forall a b, Rabs a <= L * E -> Rabs b <= E -> Rabs (a + h * b) <= L * (q * E)).
    { intros a b Ha Hb. replace (L * (q * E)) with (L * E + H * (k * (L * E))) by (unfold q; ring). apply tri2; [exact Ha|].
      apply mul2; [exact Hh|]. pose proof (kL E E0). lra. }
    assert (V : forall a b, Rabs a <= E -> Rabs b <= k * E -> Rabs (a + h * b) <= q * E).
    { intros a b Ha Hb. replace (q * E) with (E + H * (k * E)) by (unfold q; ring). apply tri2; [exact Ha|]. apply mul2; assumption. }
    assert (A2 : Rabs (n ^ 2) <= n ^ 2) by (rewrite Rabs_right; lra).
    split; [apply P; assumption|]. split; [apply P; assumption|]. split; [apply P; assumption|].
    split; [apply V; [assumption|]|split; apply V; try assumption].
    - eapply Rle_trans; [apply (tri2 _ _ (3 * n ^ 2 * (L * E)) (2 * Rabs n * E))|unfold k; lra].
      + apply mul2; [rewrite Rabs_right; lra|assumption].
      + apply mul2; [rewrite Rabs_mult, (Rabs_right 2); lra|assumption].
    - eapply Rle_trans; [apply (mul2 _ _ (2 * Rabs n) E)|unfold k; lra]; [|assumption].
      rewrite Rabs_mult, (Rabs_left (-2)); lra.
    - eapply Rle_trans; [apply (mul2 _ _ (n ^ 2) (L * E))|unfold k; lra]; [|assumption]. rewrite Rabs_Ropp. exact A2.
  Qed.

  Lemma estep_near ax ay az h a b E : Rabs h <= H -> 0 <= E -> length a = 6%nat -> length b = 6%nat -> near L E a b ->
    near L (q * E) (estep n ax ay az h a) (estep n ax ay az h b).
  Proof.
    intros Hh E0 La Lb [P V]. six a. six b. cbn [firstn skipn] in P, V. opens.
    destruct (lin h (x - x0) (y - y0) (z - z0) (vx - vx0) (vy - vy0) (vz - vz0) E Hh E0) as (A1 & A2 & A3 & A4 & A5 & A6); auto.
    cbn [estep]. split; cbn [firstn skipn]; repeat apply Forall2_cons; try apply Forall2_nil.
    - match goal with H : Rabs ?t <= ?b |- Rabs ?s <= ?b => replace s with t by ring; exact H end.
    - replace (y + h * vy - (y0 + h * vy0)) with (y - y0 + h * (vy - vy0)) by ring. exact A2.
    - replace (z + h * vz - (z0 + h * vz0)) with (z - z0 + h * (vz - vz0)) by ring. exact A3.
    - match goal with |- Rabs ?s <= _ => replace s with (vx - vx0 + h * (3 * n ^ 2 * (x - x0) + 2 * n * (vy - vy0))) by ring end. exact A4.
    - match goal with |- Rabs ?s <= _ => replace s with (vy - vy0 + h * (- 2 * n * (vx - vx0))) by ring end. exact A5.
    - match goal with |- Rabs ?s <= _ => replace s with (vz - vz0 + h * (- n ^ 2 * (z - z0))) by ring end. exact A6.
  Qed.

  Lemma estep_sized ax ay az h a E A : Rabs h <= H -> 0 <= E -> length a = 6%nat -> sized L E a -> Rabs ax <= A -> Rabs ay <= A -> Rabs az <= A ->
    sized L (q * E + H * A) (estep n ax ay az h a).
  Proof.
    intros Hh E0 La [P V] Ax Ay Az. six a. cbn [firstn skipn] in P, V. opens.
    destruct (lin h x y z vx vy vz E Hh E0) as (A1 & A2 & A3 & A4 & A5 & A6); auto.
    assert (A0 : 0 <= A) by (eapply Rle_trans; [apply Rabs_pos|exact Ax]). assert (HA : 0 <= H * A) by (apply Rmult_le_pos; lra).
    assert (LA : 0 <= L * (H * A)) by (apply Rmult_le_pos; lra).
    assert (K : forall a, Rabs a <= A -> Rabs (h * a) <= H * A) by (intros; apply mul2; assumption).
    cbn [estep]. split; cbn [firstn skipn]; repeat apply Forall_cons; try apply Forall_nil; try lra.
    - match goal with |- Rabs ?s <= _ => replace s with ((vx + h * (3 * n ^ 2 * x + 2 * n * vy)) + h * ax) by ring end. apply tri2; auto.
    - match goal with |- Rabs ?s <= _ => replace s with ((vy + h * (- 2 * n * vx)) + h * ay) by ring end. apply tri2; auto.
    - match goal with |- Rabs ?s <= _ => replace s with ((vz + h * (- n ^ 2 * z)) + h * az) by ring end. apply tri2; auto.
  Qed.

  (** Error of one Euler step. *)
  Lemma local ax ay az h a B A : Rabs h <= H -> 0 <= B -> length a = 6%nat -> sized L B a -> Rabs ax <= A -> Rabs ay <= A -> Rabs az <= A ->
    near L (H ^ 2 * (bend n L * B + (11 / 2 / L + 5 * Rabs n) * A)) (estep n ax ay az h a) (cw_forced n ax ay az a h).
  Proof.
    intros Hh B0 La [P V] Ax Ay Az. six a. cbn [firstn skipn] in P, V. opens.
    assert (A0 : 0 <= A) by (eapply Rle_trans; [apply Rabs_pos|exact Ax]).
    rewrite forced_eq. cbv zeta. cbn [estep].
    set (sg := n * h - sin (n * h)). set (gm := 1 - cos (n * h)).
    replace (sin (n * h)) with (n * h - sg) by (unfold sg; ring). replace (cos (n * h)) with (1 - gm) by (unfold gm; ring).
    pose proof (gam_bound (n * h)) as G. pose proof (sig_bound (n * h)) as Sg. fold gm in G. fold sg in Sg.
    set (N := Rabs n). assert (N0 : 0 < N) by (apply Rabs_pos_lt; exact Hn).
    assert (NN : n ^ 2 = N ^ 2) by (unfold N; symmetry; apply pow2_abs).
    assert (hh : 0 <= h ^ 2 <= H ^ 2).
    { replace (h ^ 2) with (Rabs h ^ 2) by (apply pow2_abs). pose proof (Rabs_pos h).
      split; [apply pow_le; lra|apply pow_incr; lra]. }
    replace ((n * h) ^ 2) with (n ^ 2 * h ^ 2) in * by ring. rewrite NN in G, Sg.
    set (Q := N ^ 2 * H ^ 2). assert (N2 : 0 < N ^ 2) by (apply pow_lt; exact N0). assert (Q0 : 0 <= Q) by (apply Rmult_le_pos; lra).
    assert (Qh : N ^ 2 * h ^ 2 <= Q) by (apply Rmult_le_compat_l; lra).
    assert (G' : Rabs gm <= Q / 2) by (rewrite Rabs_right; lra). assert (S' : Rabs sg <= Q) by lra.
    assert (Ni : Rabs (/ n) <= / N) by (unfold N; rewrite Rabs_inv; lra).
    assert (N2i : Rabs (/ n ^ 2) <= / N ^ 2) by (rewrite NN, Rabs_right; [lra|]; apply Rle_ge; left; apply Rinv_0_lt_compat; exact N2).
    assert (Nb : Rabs n <= N) by (unfold N; lra).
    assert (Ip : 0 < / N) by (apply Rinv_0_lt_compat; exact N0). assert (Li : 0 < / L) by (apply Rinv_0_lt_compat; lra).
    assert (Hp : Rabs (h ^ 2) <= H ^ 2) by (rewrite Rabs_right; lra).
    assert (H2 : 0 <= H ^ 2) by lra.
    (* the bound, split up *)
    assert (TV : H ^ 2 * (bend n L * B + (11 / 2 / L + 5 * N) * A) = Q * (6 * B) + Q * N * (3 * (L * B)) + Q * / N * / L * (5 * B) + H ^ 2 * / L * (11 / 2 * A) + H ^ 2 * N * (5 * A)).
    { unfold bend. rewrite NN. fold N. unfold Q. field. split; lra. }
    assert (TP : L * (H ^ 2 * (bend n L * B + (11 / 2 / L + 5 * N) * A)) = Q * (6 * (L * B)) + Q * N * (3 * (L * (L * B))) + Q * / N * (5 * B) + H ^ 2 * (11 / 2 * A) + H ^ 2 * N * (5 * (L * A))).
    { rewrite TV. field. split; lra. }
    assert (B1 : 0 <= L * B) by (apply Rmult_le_pos; lra). assert (A1 : 0 <= L * A) by (apply Rmult_le_pos; lra).
    assert (C1 : 0 <= Q * (L * B)) by (apply Rmult_le_pos; lra). assert (C2 : 0 <= Q * N * (L * (L * B))) by pos.
    assert (C3 : 0 <= Q * / N * B) by pos. assert (C4 : 0 <= H ^ 2 * A) by (apply Rmult_le_pos; lra).
    assert (C5 : 0 <= H ^ 2 * N * (L * A)) by pos. assert (C6 : 0 <= Q * B) by (apply Rmult_le_pos; lra).
    assert (C7 : 0 <= Q * N * (L * B)) by pos. assert (C8 : 0 <= Q * / N * / L * B) by pos.
    assert (C9 : 0 <= H ^ 2 * / L * A) by pos. assert (C10 : 0 <= H ^ 2 * N * A) by pos.
    assert (QN : Q * / N ^ 2 = H ^ 2) by (unfold Q; field; lra). assert (QN1 : Q * / N = H ^ 2 * N) by (unfold Q; field; lra).
    (* the terms *)
    assert (gp : forall b, Rabs b <= L * B -> Rabs (gm * b) <= Q / 2 * (L * B)) by (intros; apply mul2; assumption).
    assert (sp : forall b, Rabs b <= L * B -> Rabs (sg * b) <= Q * (L * B)) by (intros; apply mul2; assumption).
    assert (gv : forall b, Rabs b <= B -> Rabs (gm * b) <= Q / 2 * B) by (intros; apply mul2; assumption).
    assert (sv : forall b, Rabs b <= B -> Rabs (sg * b) <= Q * B) by (intros; apply mul2; assumption).
    assert (gvn : forall b, Rabs b <= B -> Rabs (gm * / n * b) <= Q / 2 * / N * B) by (intros; repeat apply mul2; assumption).
    assert (svn : forall b, Rabs b <= B -> Rabs (sg * / n * b) <= Q * / N * B) by (intros; repeat apply mul2; assumption).
    assert (gpn : forall b, Rabs b <= L * B -> Rabs (gm * n * b) <= Q / 2 * N * (L * B)) by (intros; repeat apply mul2; assumption).
    assert (spn : forall b, Rabs b <= L * B -> Rabs (sg * n * b) <= Q * N * (L * B)) by (intros; repeat apply mul2; assumption).
    assert (ga : forall b, Rabs b <= A -> Rabs (gm * / n ^ 2 * b) <= H ^ 2 / 2 * A).
    { intros b Hb. eapply Rle_trans; [apply (mul2 _ _ (Q / 2 * / N ^ 2) A); [apply mul2; assumption|exact Hb]|]. right. f_equal. unfold Rdiv. rewrite <- QN. ring. }
    assert (sa : forall b, Rabs b <= A -> Rabs (sg * / n ^ 2 * b) <= H ^ 2 * A).
    { intros b Hb. eapply Rle_trans; [apply (mul2 _ _ (Q * / N ^ 2) A); [apply mul2; assumption|exact Hb]|]. right. f_equal. exact QN. }
    assert (ga1 : forall b, Rabs b <= A -> Rabs (gm * / n * b) <= H ^ 2 * N / 2 * A).
    { intros b Hb. eapply Rle_trans; [apply (mul2 _ _ (Q / 2 * / N) A); [apply mul2; assumption|exact Hb]|]. right. f_equal. unfold Rdiv. rewrite <- QN1. ring. }
    assert (sa1 : forall b, Rabs b <= A -> Rabs (sg * / n * b) <= H ^ 2 * N * A).
    { intros b Hb. eapply Rle_trans; [apply (mul2 _ _ (Q * / N) A); [apply mul2; assumption|exact Hb]|]. right. f_equal. exact QN1. }
    assert (ha : Rabs (h ^ 2 * ay) <= H ^ 2 * A) by (apply mul2; assumption).
    assert (nn : n <> 0) by exact Hn.
    split; cbn [firstn skipn]; repeat apply Forall2_cons; try apply Forall2_nil; first [rewrite TP|rewrite TV].
    - pose proof (gp x ltac:(assumption)) as T1. pose proof (svn vx ltac:(assumption)) as T2. pose proof (gvn vy ltac:(assumption)) as T3.
      pose proof (ga ax Ax) as T4. pose proof (sa ay Ay) as T5.
      match goal with |- Rabs ?s <= _ => replace s with (- (3 * (gm * x)) + sg * / n * vx - 2 * (gm * / n * vy) - gm * / n ^ 2 * ax - 2 * (sg * / n ^ 2 * ay)) by (field; exact nn) end.
      apply Rabs_le_inv in T1, T2, T3, T4, T5. apply Rabs_le. lra.
    - pose proof (sp x ltac:(assumption)) as T1. pose proof (gvn vx ltac:(assumption)) as T2. pose proof (svn vy ltac:(assumption)) as T3.
      pose proof (sa ax Ax) as T4. pose proof (ga ay Ay) as T5. pose proof ha as T6.
      match goal with |- Rabs ?s <= _ => replace s with (6 * (sg * x) + 2 * (gm * / n * vx) + 4 * (sg * / n * vy) + 2 * (sg * / n ^ 2 * ax) - 4 * (gm * / n ^ 2 * ay) + 3 / 2 * (h ^ 2 * ay)) by (field; exact nn) end.
      apply Rabs_le_inv in T1, T2, T3, T4, T5, T6. apply Rabs_le. lra.
    - pose proof (gp z ltac:(assumption)) as T1. pose proof (svn vz ltac:(assumption)) as T2. pose proof (ga az Az) as T4.
      match goal with |- Rabs ?s <= _ => replace s with (gm * z + sg * / n * vz - gm * / n ^ 2 * az) by (field; exact nn) end.
      apply Rabs_le_inv in T1, T2, T4. apply Rabs_le. lra.
    - pose proof (spn x ltac:(assumption)) as T1. pose proof (gv vx ltac:(assumption)) as T2. pose proof (sv vy ltac:(assumption)) as T3.
      pose proof (sa1 ax Ax) as T4. pose proof (ga1 ay Ay) as T5.
      match goal with |- Rabs ?s <= _ => replace s with (3 * (sg * n * x) + gm * vx + 2 * (sg * vy) + sg * / n * ax - 2 * (gm * / n * ay)) by (field; exact nn) end.
      apply Rabs_le_inv in T1, T2, T3, T4, T5. apply Rabs_le. lra.
    - pose proof (gpn x ltac:(assumption)) as T1. pose proof (sv vx ltac:(assumption)) as T2. pose proof (gv vy ltac:(assumption)) as T3.
      pose proof (ga1 ax Ax) as T4. pose proof (sa1 ay Ay) as T5.
      match goal with |- Rabs ?s <= _ => replace s with (6 * (gm * n * x) - 2 * (sg * vx) + 4 * (gm * vy) + 2 * (gm * / n * ax) + 4 * (sg * / n * ay)) by (field; exact nn) end.
      apply Rabs_le_inv in T1, T2, T3, T4, T5. apply Rabs_le. lra.
    - pose proof (spn z ltac:(assumption)) as T1. pose proof (gv vz ltac:(assumption)) as T2. pose proof (sa1 az Az) as T4.
      match goal with |- Rabs ?s <= _ => replace s with (- (sg * n * z) + gm * vz + sg * / n * az) by (field; exact nn) end.
      apply Rabs_le_inv in T1, T2, T4. apply Rabs_le. lra.
  Qed.
End G.

Lemma near_tri L E F a b c : near L E a b -> near L F b c -> near L (E + F) a c.
Proof.
  assert (T : forall A B a b c, Forall2 (fun x t => Rabs (x - t) <= A) a b -> Forall2 (fun x t => Rabs (x - t) <= B) b c ->
    Forall2 (fun x t => Rabs (x - t) <= A + B) a c).
  { intros A B l l' l'' P. revert l''. induction P; intros l'' Q; inversion Q; subst; constructor; [|auto].
    match goal with |- Rabs (?x - ?z) <= _ => match goal with H : Rabs (x - ?y) <= A |- _ => replace (x - z) with ((x - y) + (y - z)) by ring end end.
    apply tri2; assumption. }
  intros [P1 P2] [Q1 Q2]. split; [replace (L * (E + F)) with (L * E + L * F) by ring|]; eapply T; eauto.
Qed.
Lemma near_sized L E F a b : sized L E a -> near L F a b -> sized L (E + F) b.
Proof.
  assert (T : forall A B a b, Forall (fun t => Rabs t <= A) a -> Forall2 (fun x t => Rabs (x - t) <= B) a b -> Forall (fun t => Rabs t <= A + B) b).
  { intros A B l l' P Q. revert P. induction Q; intros P; inversion P; subst; constructor; [|auto].
    match goal with H : Rabs (?x - ?y) <= B |- Rabs ?y <= _ => replace y with (x + - (x - y)) by ring; apply tri2; [assumption|rewrite Rabs_Ropp; exact H] end. }
  intros [P1 P2] [Q1 Q2]. split; [replace (L * (E + F)) with (L * E + L * F) by ring|]; eapply T; eauto.
Qed.
Lemma near_mono L E F a b : 0 <= L -> E <= F -> near L E a b -> near L F a b.
Proof.
  intros HL Le [P Q]. assert (L * E <= L * F) by (apply Rmult_le_compat_l; lra).
  assert (T : forall A B a b, A <= B -> Forall2 (fun x t => Rabs (x - t) <= A) a b -> Forall2 (fun x t => Rabs (x - t) <= B) a b).
  { intros A B l l' H0 P0. induction P0; constructor; [lra|assumption]. }
  split; eapply T; eauto.
Qed.
Lemma tracks_near L E F s r p : tracks_scaled L E s r -> near L F r p -> tracks_scaled L (E + F) s p.
Proof.
  assert (T : forall A B s r p, tracks A s r -> Forall2 (fun x t => Rabs (x - t) <= B) r p -> tracks (A + B) s p).
  { intros A B l l' l'' P. revert l''. induction P as [|? ? ? ? [F1 F2]]; intros l'' Q; inversion Q; subst; constructor; [|apply IHP; assumption].
    split; [exact F1|]. match goal with |- Rabs (B2R ?x - ?z) <= _ => match goal with H : Rabs (B2R x - ?y) <= A |- _ => replace (B2R x - z) with ((B2R x - y) + (y - z)) by ring end end.
    apply tri2; assumption. }
  intros [P1 P2] [Q1 Q2]. split; [replace (L * (E + F)) with (L * E + L * F) by ring|]; eapply T; eauto.
Qed.
Lemma near_refl L r : length r = 6%nat -> near L 0 r r.
Proof.
  intros H. six r. split; cbn [firstn skipn]; rewrite ?Rmult_0_r; repeat apply Forall2_cons; try apply Forall2_nil; rewrite Rminus_eq_0, Rabs_R0; lra.
Qed.

Lemma bend_pos n L : n <> 0 -> 1 <= L -> 0 <= bend n L.
Proof.
  intros Hn HL. unfold bend. assert (0 < Rabs n) by (apply Rabs_pos_lt; exact Hn). assert (0 < Rabs n * L) by (apply Rmult_lt_0_compat; lra).
  assert (0 < / (Rabs n * L)) by (apply Rinv_0_lt_compat; assumption). assert (0 <= n ^ 2) by nra.
  apply Rmult_le_pos; [assumption|]. unfold Rdiv. lra.
Qed.
Lemma kick_pos m n L : m <> 0 -> 1 <= L -> 0 <= kick m n L.
Proof.
  intros Hm HL. unfold kick. assert (0 < / Rabs m) by (apply Rinv_0_lt_compat, Rabs_pos_lt; exact Hm). assert (0 < / L) by (apply Rinv_0_lt_compat; lra).
  pose proof (Rabs_pos n). unfold Rdiv. apply Rmult_le_pos; lra.
Qed.

Lemma run_orbit (wr : world xr) M N samples L H : (samples <= 0)%Z -> M <> 0 -> N <> 0 -> 1 <= L -> 0 <= H ->
  let q := 1 + H * (/ L + 3 * N ^ 2 * L + 2 * Rabs N) in
  let p := q + H ^ 2 * bend N L in
  let d := H / Rabs M + H ^ 2 * kick M N L in
  forall B acts (er : entity xr) r s E W,
  cwh_dyn (N := XR Fin) (Fin M) (Fin N) samples "Euler" = Ok (e_dyn er) ->
  e_cmin er = A0 (Fin (-1/1)) -> e_cmax er = A0 (Fin (1/1)) -> Forall (proper H) acts ->
  e_state er = A1 (map Fin r) -> length r = 6%nat -> length s = 6%nat -> 0 <= E -> 0 <= W -> near L E r s -> sized L W s ->
  p ^ length acts * (W + INR (length acts) * d) <= B ->
  exists er' r', run (N := XR Fin) wr er (actsR acts) = Ok er' /\ e_state er' = A1 (map Fin r') /\
    near L (q ^ length acts * (E + INR (length acts) * (H ^ 2 * (bend N L * B + kick M N L)))) r' (orbit M N s acts).
Proof.
  intros Sa Nz Hn HL H0 q p d B.
  set (A := / Rabs M). assert (A0 : 0 < A) by (apply Rinv_0_lt_compat, Rabs_pos_lt; exact Nz).
  pose proof (bend_pos N L Hn HL) as bp. pose proof (kick_pos M N L Nz HL) as kp.
  pose proof (q_ge L N H HL H0 : 1 <= q) as Q1. assert (H2 : 0 <= H ^ 2) by nra.
  assert (P1 : q <= p) by (unfold p; pose proof (Rmult_le_pos _ _ H2 bp); lra).
  assert (d0 : 0 <= d) by (unfold d; pose proof (Rmult_le_pos _ _ H2 kp); pose proof (Rmult_le_pos _ _ H0 (Rlt_le _ _ A0)); unfold Rdiv; fold A; lra).
  induction acts as [|[h u] acts IH]; intros er r s E W Dr C1 C2 Pa Er Lr Ls E0 W0 Nr Sz Cap.
  - exists er, r. split; [reflexivity|]. split; [exact Er|]. cbn [orbit fold_left]. eapply near_mono; [lra| |exact Nr]. cbn. lra.
  - inversion Pa as [|? ? (Wh & Hh & Lu & Fu) Pa']; subst. cbn [fst snd] in *.
    destruct u as [|fx [|fy [|fz [|? ?]]]]; try discriminate. clear Lu.
    set (ax := clipR (-1) 1 (B2R fx) / M). set (ay := clipR (-1) 1 (B2R fy) / M). set (az := clipR (-1) 1 (B2R fz) / M).
    assert (Uv : forall a, Rabs (clipR (-1) 1 a / M) <= A).
    { intros a. pose proof (clip_1 a). unfold Rdiv, A. rewrite Rabs_mult, Rabs_inv. fold A. rewrite <- (Rmult_1_l A) at 2. apply Rmult_le_compat_r; lra. }
    pose proof (Uv (B2R fx) : Rabs ax <= A) as Ax. pose proof (Uv (B2R fy) : Rabs ay <= A) as Ay. pose proof (Uv (B2R fz) : Rabs az <= A) as Az.
    assert (Kk : (11 / 2 / L + 5 * Rabs N) * A = kick M N L) by reflexivity.
    pose proof (estep_near N L H HL ax ay az (B2R h) r s E Hh E0 Lr Ls Nr) as T1.
    pose proof (local N L H HL Hn ax ay az (B2R h) s W A Hh W0 Ls Sz Ax Ay Az) as T2. rewrite Kk in T2.
    pose proof (estep_sized N L H HL H0 ax ay az (B2R h) s W A Hh W0 Ls Sz Ax Ay Az) as T3.
    pose proof (near_sized _ _ _ _ _ T3 T2) as T4. pose proof (near_tri _ _ _ _ _ _ T1 T2) as T5. fold q in T4, T5.
    set (s1 := cw_forced N ax ay az s (B2R h)) in *.
    assert (L1 : length s1 = 6%nat) by (apply forced_len; exact Ls).
    cbn [length pow] in Cap. rewrite S_INR in Cap. set (j := length acts) in *.
    assert (Pj : 1 <= p ^ j) by (apply pow_R1_Rle; lra). assert (Qj : 1 <= q ^ j) by (apply pow_R1_Rle; lra). pose proof (pos_INR j) as Ij.
    assert (Ijd : 0 <= INR j * d) by (apply Rmult_le_pos; assumption).
    assert (WB : W <= B).
    { eapply Rle_trans; [|exact Cap]. assert (1 <= p * p ^ j) by nra.
      assert (1 * (W + (INR j + 1) * d) <= p * p ^ j * (W + (INR j + 1) * d)) by (apply Rmult_le_compat_r; lra). lra. }
    assert (B0 : 0 <= B) by lra.
    set (tau := H ^ 2 * (bend N L * B + kick M N L)).
    assert (tau0 : 0 <= tau) by (unfold tau; apply Rmult_le_pos; [lra|]; pose proof (Rmult_le_pos _ _ bp B0); lra).
    assert (tw : H ^ 2 * (bend N L * W + kick M N L) <= tau).
    { apply Rmult_le_compat_l; [lra|]. assert (bend N L * W <= bend N L * B) by (apply Rmult_le_compat_l; lra). lra. }
    assert (qE : 0 <= q * E) by (apply Rmult_le_pos; lra).
    assert (pW : 0 <= p * W) by (apply Rmult_le_pos; lra).
    six r.
    destruct (exact_step wr er M N samples (B2R h) x y z vx vy vz (B2R fx) (B2R fy) (B2R fz) Dr Sa Nz C1 C2 Er) as [R1 R2].
    fold ax ay az in R2.
    assert (G2 := entity_step_config (N := XR Fin) wr er (Fin (B2R h)) (AArr (A1 (map Fin [B2R fx; B2R fy; B2R fz])))).
    destruct G2 as (J1 & _ & J2 & J3 & _).
    edestruct (IH _ _ s1 (q * E + tau) (p * W + d) ltac:(rewrite J1; exact Dr) ltac:(rewrite J2; exact C1) ltac:(rewrite J3; exact C2) Pa' R2 eq_refl L1) as (er' & r' & X1 & X2 & X3).
    + lra.
    + lra.
    + eapply near_mono; [lra| |exact T5]. lra.
    + replace (p * W + d) with (q * W + H * A + H ^ 2 * (bend N L * W + kick M N L)); [exact T4|]. unfold p, d, Rdiv. fold A. ring.
    + fold j. eapply Rle_trans; [|exact Cap]. replace (p * p ^ j * (W + (INR j + 1) * d)) with (p ^ j * (p * (W + (INR j + 1) * d))) by ring.
      apply Rmult_le_compat_l; [lra|]. assert (1 * ((INR j + 1) * d) <= p * ((INR j + 1) * d)) by (apply Rmult_le_compat_r; lra). lra.
    + exists er', r'. cbn [actsR map run fst snd]. cbn [map] in R1, X1. rewrite R1. cbn [bind]. split; [exact X1|]. split; [exact X2|].
      eapply near_mono; [lra| |exact X3]. cbn [length]. fold j. rewrite S_INR, <- (tech_pow_Rmult q j). fold tau.
      replace (q * q ^ j * (E + (INR j + 1) * tau)) with (q ^ j * (q * (E + (INR j + 1) * tau))) by ring. apply Rmult_le_compat_l; [lra|].
      assert (0 <= INR j * tau) by (apply Rmult_le_pos; assumption).
      assert (1 * ((INR j + 1) * tau) <= q * ((INR j + 1) * tau)) by (apply Rmult_le_compat_r; lra). lra.
Qed.

Lemma cwh_exists m n samples x y z vx vy vz : m <> 0 -> exists er, cwh_spacecraft (N := XR Fin) (Fin m) (Fin n) samples "Euler" x y z vx vy vz = Ok er.
Proof.
  intros Hm. unfold cwh_spacecraft, cwh_dyn, generate_cwh_matrices, pydiv, linear_dyn. cbn.
  rewrite (Req_bool_false m (0/1)) by lra. cbn. eexists. reflexivity.
Qed.

Lemma cwh_orbit (lm : libm) (w : world f64) (m n : f64) samples (x y z vx vy vz : f64) L H W acts e :
  (samples <= 0)%Z -> is_finite m = true -> bpow radix2 (-100) <= Rabs (B2R m) -> SpecRound.within 50 n -> B2R n <> 0 -> 1 <= L -> 0 <= H -> 0 <= W ->
  let f := fun a : f64 => nf32 (Num := F64 lm) a in
  let q := 1 + H * (/ L + 3 * B2R n ^ 2 * L + 2 * Rabs (B2R n)) in
  let c := H / Rabs (B2R m) in
  let p := q + H ^ 2 * bend (B2R n) L in
  let d := c + H ^ 2 * kick (B2R m) (B2R n) L in
  let k := length acts in
  let B := q ^ k * (W + INR k * c) in
  let D := p ^ k * (W + INR k * d) in
  let s0 := map (fun a => B2R (f a)) [x; y; z; vx; vy; vz] in
  cwh_spacecraft (N := F64 lm) m n samples "Euler" x y z vx vy vz = Ok e ->
  Forall (fun a => is_finite (f a) = true) [x; y; z; vx; vy; vz] ->
  sized L W s0 -> Forall (proper H) acts -> L * (B + drift q B c k) <= bpow radix2 100 ->
  exists e' s', run (N := F64 lm) w e (acts64 acts) = Ok e' /\ e_state e' = A1 s' /\
    tracks_scaled L (drift q B c k + q ^ k * (INR k * (H ^ 2 * (bend (B2R n) L * D + kick (B2R m) (B2R n) L)))) s' (orbit (B2R m) (B2R n) s0 acts).
Proof.
  intros Sa Fm Hm Wn Hn HL H0 W0 f q c p d k B D s0 Ee F0 Sz Pa Cap.
  assert (Nz : B2R m <> 0).
  { intros Q. rewrite Q, Rabs_R0 in Hm. pose proof (bpow_gt_0 radix2 (-100)). lra. }
  pose (g := fun a : f64 => Fin (B2R (f a))).
  destruct (cwh_exists (B2R m) (B2R n) samples (g x) (g y) (g z) (g vx) (g vy) (g vz) Nz) as [er Er].
  destruct (cwh_long lm w (cw_world 0) m n samples x y z vx vy vz L H W acts e er Sa Fm Hm Wn HL H0 W0 Ee Er F0 Sz Pa Cap)
    as (e' & er' & s' & r' & X1 & X2 & X3 & X4 & X5).
  destruct (cwh_spacecraft_dyn Fin _ _ _ _ _ _ _ _ _ _ _ Er) as (Dr & _ & C1 & C2 & _).
  assert (Sr : e_state er = A1 (map Fin s0)).
  { unfold cwh_spacecraft in Er. destruct (cwh_dyn (N := XR Fin) _ _ _ _) as [dd|]; [|discriminate]. cbn [bind] in Er. injection Er as <-. reflexivity. }
  destruct (run_orbit (cw_world 0) (B2R m) (B2R n) samples L H Sa Nz Hn HL H0 D acts er s0 s0 0 W Dr C1 C2 Pa Sr eq_refl eq_refl
    (Rle_refl 0) W0 (near_refl L s0 eq_refl) Sz (Rle_refl _)) as (er2 & r2 & Y1 & Y2 & Y3).
  rewrite X2 in Y1. injection Y1 as <-. rewrite X4 in Y2. injection Y2 as Y2. apply map_inj_Fin in Y2. subst r2.
  exists e', s'. split; [exact X1|]. split; [exact X3|]. rewrite Rplus_0_l in Y3. exact (tracks_near _ _ _ _ _ _ X5 Y3).
Qed.
