(** Convergence of the Euler method for Lipschitz equations, and for the planar spacecraft
    with rotation. *)
From Coq Require Import String List Bool Arith ZArith Lia Reals Lra.
From Flocq Require Import Core.Core.
From Coquelicot Require Import Coquelicot.
From Verif Require Import PyBase Num Arr BaseModel Cwh Rot2d Spec SpecBase SpecWrap XReal XTac SpecRk SpecCwh LimLemmas
  WrapLemmas SymLemmas2 SpecFlow FlowLemmas Rot2dLemmas RotProps CommandLemmas ConvLemmas.
Import List ListNotations.
Local Open Scope R_scope.

Lemma sol_bounded (f f1 : R -> R) T : 0 <= T -> (forall t, 0 <= t <= T -> is_derive f t (f1 t)) ->
  exists B, forall t, 0 <= t <= T -> Rabs (f t) <= B.
Proof.
  intros HT D. destruct (continuity_ab_maj (fun t => Rabs (f t)) 0 T HT) as (x & Hx & _).
  - intros c Hc. apply continuity_pt_filterlim. apply (continuous_comp f Rabs).
    + apply (@ex_derive_continuous R_AbsRing R_NormedModule). eexists. apply D, Hc.
    + apply continuous_Rabs.
  - exists (Rabs (f x)). exact Hx.
Qed.

Lemma sols_bounded (f f1 : nat -> R -> R) T k : 0 <= T ->
  (forall i t, (i < k)%nat -> 0 <= t <= T -> is_derive (f i) t (f1 i t)) ->
  exists B, 0 <= B /\ forall i t, (i < k)%nat -> 0 <= t <= T -> Rabs (f i t) <= B.
Proof.
  intros HT. induction k as [|k IH]; intros D.
  - exists 0. split; [lra|]. intros; lia.
  - destruct IH as (B & B0 & HB); [intros; apply D; auto|].
    destruct (sol_bounded (f k) (f1 k) T HT) as (B' & HB'); [intros; apply D; auto|].
    exists (Rmax B B'). split; [eapply Rle_trans; [exact B0|apply Rmax_l]|].
    intros i t Hi Ht. destruct (Nat.eq_dec i k) as [-> | Ne].
    + eapply Rle_trans; [apply HB', Ht|apply Rmax_r].
    + eapply Rle_trans; [apply HB; auto; lia|apply Rmax_l].
Qed.

Section Gen.
  Variable k : nat.
  Variable F : list R -> list R.
  Variables L T : R.
  Hypothesis HL : 0 <= L.
  Hypothesis HT : 0 <= T.
  Hypothesis lenF : forall s, length s = k -> length (F s) = k.
  Hypothesis lip : forall s s' eps, length s = k -> within eps s s' -> within (L * eps) (F s) (F s').
  Variable phi : R -> list R.
  Hypothesis lenP : forall t, 0 <= t <= T -> length (phi t) = k.
  Hypothesis der : forall i t, (i < k)%nat -> 0 <= t <= T -> is_derive (fun u => nth i (phi u) 0) t (nth i (F (phi t)) 0).

  Lemma beyond i (s : list R) : length s = k -> (k <= i)%nat -> nth i s 0 = 0.
  Proof. intros Ls Hi. apply nth_overflow. lia. Qed.

  Lemma lipschitz_converges : exists K, 0 <= K /\ forall N, (0 < N)%nat ->
    within (K * (T / INR N)) (euler_iter F (T / INR N) N (phi 0)) (phi T).
  Proof.
    destruct (sols_bounded (fun i u => nth i (phi u) 0) (fun i t => nth i (F (phi t)) 0) T k HT der) as (B & B0 & HB).
    destruct (sols_bounded (fun i u => nth i (F (phi 0)) 0) (fun i t => 0) T k HT) as (C & C0 & HC).
    { intros. apply @is_derive_const. }
    set (D := C + L * (2 * B)). assert (D0 : 0 <= D) by (unfold D; nra).
    assert (HD : forall i t, (i < k)%nat -> 0 <= t <= T -> Rabs (nth i (F (phi t)) 0) <= D).
    { intros i t Hi Ht.
      assert (W : within (2 * B) (phi t) (phi 0)).
      { split; [rewrite !lenP by lra; reflexivity|]. intros j. destruct (le_lt_dec k j) as [Hj|Hj].
        - rewrite !beyond; auto; try (apply lenP; lra). rewrite Rminus_0_r, Rabs_R0. lra.
        - pose proof (HB j t Hj Ht). pose proof (HB j 0 Hj ltac:(lra)). eapply Rle_trans; [apply Rabs_triang|].
          rewrite Rabs_Ropp. lra. }
      destruct (lip _ _ _ (lenP t Ht) W) as [_ W2]. specialize (W2 i). specialize (HC i 0 Hi ltac:(lra)).
      replace (nth i (F (phi t)) 0) with ((nth i (F (phi t)) 0 - nth i (F (phi 0)) 0) + nth i (F (phi 0)) 0) by ring.
      eapply Rle_trans; [apply Rabs_triang|]. unfold D. lra. }
    assert (close : forall t u, 0 <= t -> t <= u <= T -> within (D * (u - t)) (phi t) (phi u)).
    { intros t u H0 Hu. split; [rewrite !lenP by lra; reflexivity|]. intros i. destruct (le_lt_dec k i) as [Hi|Hi].
      - rewrite !beyond; auto; try (apply lenP; lra). rewrite Rminus_0_r, Rabs_R0. nra.
      - rewrite Rabs_minus_sym. destruct (MVT_gen (fun u => nth i (phi u) 0) t u (fun t => nth i (F (phi t)) 0)) as (d & Hd & E);
          rewrite ?Rmin_left, ?Rmax_right in * by lra.
        + intros q Hq. apply der; [exact Hi|lra].
        + intros q Hq. apply continuity_pt_filterlim, (@ex_derive_continuous R_AbsRing R_NormedModule (fun u => nth i (phi u) 0) q). exists (nth i (F (phi q)) 0). apply (der i q Hi). lra.
        + rewrite E, Rabs_mult, (Rabs_pos_eq (u - t)) by lra. apply Rmult_le_compat_r; [lra|]. apply HD; [exact Hi|lra]. }
    assert (LD : 0 <= L * D) by (apply Rmult_le_pos; auto).
    exists (L * D * T * exp (L * T)). split; [pose proof (exp_pos (L * T)); repeat apply Rmult_le_pos; lra|].
    intros N HN. apply (converge_bound k F L (L * D) T HL LD lenF lip phi N HN HT); [apply lenP; lra|].
    intros h t Hh Ht Hth. 
    assert (L1 : length (phi t) = k) by (apply lenP; lra). assert (L2 : length (phi (t + h)) = k) by (apply lenP; lra).
    split; [rewrite len_vaxpy; rewrite ?lenF; congruence|].
    intros i. rewrite nth_vaxpy by (rewrite lenF; congruence). destruct (le_lt_dec k i) as [Hi|Hi].
    - rewrite !beyond; auto. replace (0 + h * 0 - 0) with 0 by ring. rewrite Rabs_R0. apply Rmult_le_pos; [auto|apply pow2_ge_0].
    - apply (tangent (fun u => nth i (phi u) 0) (fun t => nth i (F (phi t)) 0)); auto.
      + intros u Hu. apply der; [exact Hi|lra].
      + intros u Hu. destruct (lip _ _ _ L1 (close t u Ht ltac:(lra))) as [_ W]. rewrite Rmult_assoc. apply W.
  Qed.
End Gen.

(** The planar spacecraft away from its limits; heading not wrapped. *)
Definition rotF (n ax ay b : R) (s : list R) : list R :=
  match s with
  | [x; y; th; vx; vy; wz] =>
      [vx; vy; wz; 3 * n^2 * x + 2 * n * vy + (cos th * ax - sin th * ay); - 2 * n * vx + (sin th * ax + cos th * ay); b]
  | _ => s
  end.
Definition rotL (n ax ay : R) : R := 1 + 3 * n^2 + 2 * Rabs n + Rabs ax + Rabs ay.

Lemma list6 (s : list R) : length s = 6%nat -> exists a b c d e f, s = [a; b; c; d; e; f].
Proof. destruct s as [|a [|b [|c [|d [|e [|f []]]]]]]; try discriminate. intros _. now exists a, b, c, d, e, f. Qed.

Lemma rotL_pos n ax ay : 1 <= rotL n ax ay.
Proof. unfold rotL. pose proof (Rabs_pos n). pose proof (pow2_ge_0 n). pose proof (Rabs_pos ax). pose proof (Rabs_pos ay). lra. Qed.
Lemma rotF_len n ax ay b s : length s = 6%nat -> length (rotF n ax ay b s) = 6%nat.
Proof. intros Ls. destruct (list6 s Ls) as (? & ? & ? & ? & ? & ? & ->). reflexivity. Qed.

Lemma mul_le_abs c a e : Rabs a <= e -> Rabs (c * a) <= Rabs c * e.
Proof. intros H. rewrite Rabs_mult. apply Rmult_le_compat_l; auto using Rabs_pos. Qed.

Lemma rotF_lip n ax ay b s s' eps : length s = 6%nat -> within eps s s' ->
  within (rotL n ax ay * eps) (rotF n ax ay b s) (rotF n ax ay b s').
Proof.
  intros Ls [L' W]. destruct (list6 s Ls) as (x & y & th & vx & vy & wz & ->).
  destruct (list6 s' ltac:(rewrite <- L'; reflexivity)) as (x' & y' & th' & vx' & vy' & wz' & ->).
  split; [reflexivity|].
  pose proof (W 0%nat) as W0. pose proof (W 2%nat) as W2. pose proof (W 3%nat) as W3. pose proof (W 4%nat) as W4. pose proof (W 5%nat) as W5.
  cbn [nth] in W0, W2, W3, W4, W5. assert (E0 : 0 <= eps) by (eapply Rle_trans; [apply Rabs_pos|exact W0]).
  pose proof (Rabs_pos n) as N0. pose proof (pow2_ge_0 n) as N2. pose proof (Rabs_pos ax). pose proof (Rabs_pos ay).
  pose proof (mul_le_abs (3 * n^2) _ _ W0) as Q0. rewrite (Rabs_pos_eq (3 * n^2)) in Q0 by lra.
  pose proof (mul_le_abs (2 * n) _ _ W4) as Q4. rewrite (Rabs_mult 2), (Rabs_pos_eq 2) in Q4 by lra.
  pose proof (mul_le_abs (2 * n) _ _ W3) as Q3. rewrite (Rabs_mult 2), (Rabs_pos_eq 2) in Q3 by lra.
  pose proof (cos_close th th') as HC. pose proof (sin_close th th') as HS.
  pose proof (mul_le_abs ax (cos th - cos th') eps ltac:(lra)) as C1. pose proof (mul_le_abs ay (cos th - cos th') eps ltac:(lra)) as C2.
  pose proof (mul_le_abs ax (sin th - sin th') eps ltac:(lra)) as S1. pose proof (mul_le_abs ay (sin th - sin th') eps ltac:(lra)) as S2.
  assert (K : forall c, c <= rotL n ax ay -> c * eps <= rotL n ax ay * eps) by (intros; apply Rmult_le_compat_r; auto).
  assert (K1 := K 1 (rotL_pos n ax ay)).
  assert (T3 : forall a b c, Rabs (a + b + c) <= Rabs a + Rabs b + Rabs c).
  { intros. eapply Rle_trans; [apply Rabs_triang|]. apply Rplus_le_compat_r, Rabs_triang. }
  intros i. destruct i as [|[|[|[|[|[|i]]]]]]; cbn [rotF nth]; try lra.
  - replace (3 * n^2 * x + 2 * n * vy + (cos th * ax - sin th * ay) - (3 * n^2 * x' + 2 * n * vy' + (cos th' * ax - sin th' * ay)))
      with (3 * n^2 * (x - x') + 2 * n * (vy - vy') + (ax * (cos th - cos th') + - (ay * (sin th - sin th')))) by ring.
    eapply Rle_trans; [apply T3|]. pose proof (Rabs_triang (ax * (cos th - cos th')) (- (ay * (sin th - sin th')))) as T2.
    rewrite Rabs_Ropp in T2. apply Rle_trans with ((3 * n^2 + 2 * Rabs n + Rabs ax + Rabs ay) * eps); [lra|]. apply K. unfold rotL. lra.
  - replace (- 2 * n * vx + (sin th * ax + cos th * ay) - (- 2 * n * vx' + (sin th' * ax + cos th' * ay)))
      with (- (2 * n * (vx - vx')) + ax * (sin th - sin th') + ay * (cos th - cos th')) by ring.
    eapply Rle_trans; [apply T3|]. rewrite Rabs_Ropp.
    apply Rle_trans with ((2 * Rabs n + Rabs ax + Rabs ay) * eps); [lra|]. apply K. unfold rotL. lra.
  - rewrite Rminus_diag_eq, Rabs_R0 by reflexivity. lra.
  - destruct i; rewrite Rminus_0_r, Rabs_R0; lra.
Qed.

Local Hint Extern 0 (Num xr) => exact (XR Fin) : typeclass_instances.

Section Rot.
  Variables (w : world xr) (m inertia al vl iw aw vw n : R) (samples : Z) (jax : bool) (x0 y0 th0 vx0 vy0 wz0 : xr)
    (e0 e : entity xr) (acts : list (xr * action xr)) (x y th vx vy wz fx fy mz T : R).
  Hypothesis Hm : m <> 0.
  Hypothesis Hi : 0 < inertia.
  Hypothesis Sa : (samples <= 0)%Z.
  Hypothesis E0 : rot2d_spacecraft w (Fin m) (Fin inertia) (Fin al) (Fin vl) (Fin iw) (Fin aw) (Fin vw) (Fin n) samples "Euler" jax
      x0 y0 th0 vx0 vy0 wz0 = Ok e0.
  Hypothesis Re : run w e0 acts = Ok e.
  Hypothesis Es : e_state e = A1 (map Fin [x; y; th; vx; vy; wz]).
  Let acc := Rmin al (iw * aw / inertia).
  Let vel := Rmin vl (iw * vw / inertia).
  Hypothesis Hfx : -1 <= fx <= 1.
  Hypothesis Hfy : -1 <= fy <= 1.
  Hypothesis Hmz : - acc <= mz / inertia <= acc.
  Hypothesis T0 : 0 <= T.
  Hypothesis Hw : forall t, 0 <= t <= T -> - vel <= wz + mz / inertia * t <= vel.

  Let F := rotF n (fx / m) (fy / m) (mz / inertia).

  Lemma rot_iter h k : 0 <= h -> INR k * h <= T -> exists e' x' y' th' ths vx' vy',
    run w e (repeat (Fin h, AArr (A1 (map Fin [fx; fy; mz]))) k) = Ok e' /\
    e_state e' = A1 (map Fin [x'; y'; th'; vx'; vy'; wz + mz / inertia * (INR k * h)]) /\ same_angle th' ths /\
    euler_iter F h k [x; y; th; vx; vy; wz] = [x'; y'; ths; vx'; vy'; wz + mz / inertia * (INR k * h)].
  Proof.
    intros Hh. destruct (rot2d_limits (fun x => x) _ _ _ _ _ _ _ _ _ _ _ _ _ _ _ _ _ _ _ Hi E0) as (D & C1 & C2).
    fold acc vel in D, C1, C2.
    induction k as [|k IH]; intros HT.
    - exists e, x, y, th, th, vx, vy. cbn [repeat run INR euler_iter]. rewrite !Rmult_0_l, !Rmult_0_r, !Rplus_0_r.
      split; [reflexivity|]. split; [exact Es|]. split; [exists 0%Z; lra|reflexivity].
    - rewrite S_INR in *. pose proof (pos_INR k) as K0. assert (Kh : 0 <= INR k * h) by (apply Rmult_le_pos; auto).
      destruct IH as (e1 & x1 & y1 & th1 & ths1 & vx1 & vy1 & R1 & S1 & A1' & I1); [lra|].
      rewrite Rmult_plus_distr_r, Rmult_1_l in *. set (t := INR k * h) in *.
      pose proof (run_config _ _ _ _ Re) as (De & _ & De1 & De2 & _).
      pose proof (run_config _ _ _ _ R1) as (De' & _ & De1' & De2' & _).
      rewrite <- De, <- De' in D. rewrite <- De1, <- De1' in C1. rewrite <- De2, <- De2' in C2.
      destruct (rot2d_euler (fun x => x) w m inertia acc vel n samples e1 h [x1; y1; th1; vx1; vy1; wz + mz / inertia * t] [fx; fy; mz] Hm (Rgt_not_eq _ _ Hi) Sa jax D
        eq_refl eq_refl S1 _ _ C1 C2 eq_refl eq_refl) as (O & _ & S2).
      set (o := entity_step _ _ _ _) in *.
      cbn [zipw fst snd rot2d_next rot2d_rate] in S2.
      assert (Mz : clipR (- acc * inertia) (acc * inertia) mz = mz).
      { apply clipR_in. replace mz with (mz / inertia * inertia) by (field; lra). nra. }
      rewrite Mz, (clipR_in (-1) 1 fx), (clipR_in (-1) 1 fy) in S2 by auto.
      rewrite Rplus_0_l, (clipR_in (- acc) acc) in S2 by auto.
      rewrite (clipR_in (- vel) vel (wz + mz / inertia * t)) in S2 by (apply Hw; lra).
      destruct (course (- vel) vel wz (mz / inertia) t h Hh (Hw t ltac:(lra)) (Hw (t + h) ltac:(lra))) as [_ C].
      rewrite C in S2. destruct (turn_cos _ _ A1') as [Ec Esn]. rewrite Ec, Esn in S2.
      exists (o_entity o). do 6 eexists. split; [|split; [exact S2|split]].
      + replace (S k) with (k + 1)%nat by lia. rewrite repeat_app. rewrite (run_app _ _ _ _ _ R1). cbn [repeat run].
        match goal with |- context [entity_step ?a ?b ?c ?d] => change (entity_step a b c d) with o end. rewrite O. reflexivity.
      + eapply sa_trans; [apply wrapR_angle|]. apply sa_plus, A1'.
      + cbn [euler_iter]. rewrite I1. cbv zeta. unfold F. cbn [rotF]. cbv [vaxpy zipw]. fin_list; try ring; field; lra.
  Qed.

  Variables (px py pu pv : R -> R).
  Hypothesis P0 : px 0 = x /\ py 0 = y /\ pu 0 = vx /\ pv 0 = vy.
  Let pth t := th + wz * t + mz / inertia * t^2 / 2.
  Hypothesis dpx : forall t, 0 <= t <= T -> is_derive px t (pu t).
  Hypothesis dpy : forall t, 0 <= t <= T -> is_derive py t (pv t).
  Hypothesis dpu : forall t, 0 <= t <= T ->
    is_derive pu t (3 * n^2 * px t + 2 * n * pv t + (cos (pth t) * fx - sin (pth t) * fy) / m).
  Hypothesis dpv : forall t, 0 <= t <= T ->
    is_derive pv t (- 2 * n * pu t + (sin (pth t) * fx + cos (pth t) * fy) / m).

  Lemma rot_converges : exists K, forall k, (0 < k)%nat -> exists e' x' y' th' ths vx' vy',
    run w e (repeat (Fin (T / INR k), AArr (A1 (map Fin [fx; fy; mz]))) k) = Ok e' /\
    e_state e' = A1 (map Fin [x'; y'; th'; vx'; vy'; wz + mz / inertia * T]) /\ same_angle th' ths /\
    within (K * (T / INR k)) [x'; y'; ths; vx'; vy'] [px T; py T; th + wz * T + mz / inertia * T^2 / 2; pu T; pv T].
  Proof.
    set (phi := fun t => [px t; py t; pth t; pu t; pv t; wz + mz / inertia * t]).
    destruct (lipschitz_converges 6 F (rotL n (fx / m) (fy / m)) T) with (phi := phi) as (K & K0 & HK).
    - pose proof (rotL_pos n (fx / m) (fy / m)). lra.
    - exact T0.
    - intros. apply rotF_len; auto.
    - intros. apply rotF_lip; auto.
    - reflexivity.
    - intros i t Hi' Ht. unfold phi, F. cbn [rotF]. destruct i as [|[|[|[|[|[|i]]]]]]; [..|lia]; cbn [nth].
      + apply dpx, Ht.
      + apply dpy, Ht.
      + unfold pth. auto_derive; [exact I|field; lra].
      + replace (cos (pth t) * (fx / m) - sin (pth t) * (fy / m)) with ((cos (pth t) * fx - sin (pth t) * fy) / m) by (field; auto). apply dpu, Ht.
      + replace (sin (pth t) * (fx / m) + cos (pth t) * (fy / m)) with ((sin (pth t) * fx + cos (pth t) * fy) / m) by (field; auto). apply dpv, Ht.
      + auto_derive; [exact I|ring].
    - exists K. intros k Hk. specialize (HK k Hk). assert (NP : 0 < INR k) by (apply lt_0_INR; lia).
      assert (Hh : 0 <= T / INR k) by (apply Rmult_le_pos; [auto|left; apply Rinv_0_lt_compat; auto]).
      assert (Nh : INR k * (T / INR k) = T) by (field; lra).
      destruct (rot_iter (T / INR k) k Hh ltac:(lra)) as (e' & x' & y' & th' & ths & vx' & vy' & R1 & S1 & A1' & I1).
      rewrite Nh in S1, I1. exists e', x', y', th', ths, vx', vy'. split; [exact R1|]. split; [exact S1|]. split; [exact A1'|].
      destruct P0 as (Q1 & Q2 & Q3 & Q4).
      assert (I0 : phi 0 = [x; y; th; vx; vy; wz]) by (unfold phi, pth; rewrite Q1, Q2, Q3, Q4; fin_list; field; lra).
      rewrite I0, I1 in HK. destruct HK as [_ W]. split; [reflexivity|].
      intros i. specialize (W i). unfold phi in W. do 5 (destruct i as [|i]; [exact W|]).
      destruct i; cbn; rewrite Rminus_0_r, Rabs_R0; apply Rmult_le_pos; auto.
  Qed.
End Rot.
