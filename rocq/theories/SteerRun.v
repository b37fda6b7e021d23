(** Many steps of the planar spacecraft with rotation in binary64 (C122). *)
From Coq Require Import String ZArith Reals Bool List Lra Lia.
From Flocq Require Import Core.Core IEEE754.BinarySingleNaN.
From Verif Require Import PyBase Num Arr BaseModel Cwh Rot2d Float64 SpecCwh SpecRound SpecFly SpecSingle XTac ConvLemmas LimLemmas FlyRound FlyRun SingleRound SpecSteer.
Import List ListNotations.
Local Open Scope R_scope.

(** Stopping at the limit and clipping afterwards is clipping. *)
Lemma stop_clip v x h t : 0 <= v -> 0 <= h -> clipR (- v) v (x + h * stopR (- v) v x t) = clipR (- v) v (x + h * t).
Proof.
  intros V0 H0. unfold stopR. destruct (Rle_dec v x) as [A|A].
  - destruct (Rle_dec t 0) as [T|T].
    + rewrite Rmin_left by lra. reflexivity.
    + rewrite Rmin_right by lra. assert (0 <= h * t) by (apply Rmult_le_pos; lra). unfold clipR, Rmin, Rmax. repeat destruct (Rle_dec _ _); lra.
  - destruct (Rle_dec x (- v)) as [B|B]; [|reflexivity]. destruct (Rle_dec 0 t) as [T|T].
    + rewrite Rmax_left by lra. reflexivity.
    + rewrite Rmax_right by lra. assert (0 <= h * - t) by (apply Rmult_le_pos; lra). unfold clipR, Rmin, Rmax. repeat destruct (Rle_dec _ _); lra.
Qed.
Lemma clip_unit f : Rabs (clipR (-1) 1 f) <= 1.
Proof. apply Rabs_le. unfold clipR, Rmin, Rmax. repeat destruct (Rle_dec _ _); lra. Qed.
Lemma tri3 a b c d E1 E2 E3 : Rabs a <= E1 -> Rabs b <= E2 -> Rabs c <= E3 -> d = a + b + c -> Rabs d <= E1 + E2 + E3.
Proof. intros A B C ->. eapply Rle_trans; [apply Rabs_triang|]. apply Rplus_le_compat; [|exact C]. eapply Rle_trans; [apply Rabs_triang|]. lra. Qed.

Section E.
  Variables (S : ship) (B H Q : R).
  Let m := s_mass S.
  Let n := s_n S.
  Let K := steer_lip m n.
  Let e := step_single B H K Q.
  Hypotheses (m0 : m <> 0) (B4 : 4 <= B) (H0 : 0 <= H) (V0 : 0 <= s_vel S)
    (Q0 : Rabs (s_moment S) <= Q * Rabs (s_inertia S)) (i0 : s_inertia S <> 0) (M0 : 0 <= s_moment S).

  Lemma K_parts : 0 <= n ^ 2 /\ 0 <= Rabs n /\ 0 < / Rabs m /\ K = 1 + 3 * n ^ 2 + 2 * Rabs n + 2 * / Rabs m.
  Proof.
    split; [apply pow2_ge_0|]. split; [apply Rabs_pos|]. split; [apply Rinv_0_lt_compat, Rabs_pos_lt, m0|]. reflexivity.
  Qed.
  Lemma K1 : 1 <= K.
  Proof. destruct K_parts as (A & C & D & E). lra. Qed.
  Lemma Qpos : 0 <= Q.
  Proof.
    destruct (Rle_lt_dec 0 Q) as [A|A]; [exact A|]. pose proof (Rabs_pos_lt _ i0) as I. pose proof (Rabs_pos (s_moment S)).
    assert (0 < (- Q) * Rabs (s_inertia S)) by (apply Rmult_lt_0_compat; lra). lra.
  Qed.
  Lemma moment_rate z : Rabs (clipR (- s_moment S) (s_moment S) z) / Rabs (s_inertia S) <= Q.
  Proof.
    pose proof (Rabs_pos_lt _ i0) as I. apply (Rmult_le_reg_r (Rabs (s_inertia S))); [exact I|]. unfold Rdiv. rewrite Rmult_assoc, Rinv_l, Rmult_1_r by lra.
    eapply Rle_trans; [|exact Q0]. rewrite (Rabs_pos_eq (s_moment S)) by exact M0. apply Rabs_le. unfold clipR, Rmin, Rmax. repeat destruct (Rle_dec _ _); lra.
  Qed.
  (** Local error. *)
  Lemma local x h g : Rabs x <= B -> 0 <= h <= H -> 0 <= g <= K * B + Q -> bpow radix2 (-44) + single_error x h g <= e.
  Proof.
    intros X [h0 h1] G. unfold single_error, e, step_single. rewrite (Rabs_pos_eq h) by lra.
    assert (bpow radix2 (-46) * Rabs x <= bpow radix2 (-46) * B) by (apply Rmult_le_compat_l; [apply bpow_ge_0|exact X]).
    assert (bpow radix2 (-22) * (h * g) <= bpow radix2 (-22) * (H * (K * B + Q))) by (apply Rmult_le_compat_l; [apply bpow_ge_0|]; apply Rmult_le_compat; lra).
    assert (bpow radix2 (-140) * (1 + h) <= bpow radix2 (-140) * (1 + H)) by (apply Rmult_le_compat_l; [apply bpow_ge_0|lra]). lra.
  Qed.
  Lemma local' x h g : Rabs x <= B -> 0 <= h <= H -> 0 <= g <= K * B + Q -> single_error x h g <= e.
  Proof. intros X Hh G. pose proof (local x h g X Hh G). pose proof (bpow_ge_0 radix2 (-44)). lra. Qed.
  Lemma e0 : 0 <= e.
  Proof.
    pose proof K1. pose proof Qpos. assert (0 <= K * B) by (apply Rmult_le_pos; lra). eapply Rle_trans; [|apply (local 0 0 0)]; [|rewrite Rabs_R0; lra|lra|lra].
    unfold single_error. rewrite Rabs_R0. pose proof (bpow_ge_0 radix2 (-44)). pose proof (bpow_ge_0 radix2 (-140)). lra.
  Qed.

  (** One step. *)
  Lemma steer_one F p h (fx fy mz : R) x y th vx vy w (s' : list f64) : 0 <= F -> 0 <= h <= H -> Rabs (tw p) <= s_vel S ->
    Rabs (x - tx p) <= F -> Rabs (y - ty p) <= F -> angle_near F th (tth p) -> Rabs (vx - tvx p) <= F -> Rabs (vy - tvy p) <= F -> Rabs (w - tw p) <= F ->
    Rabs x <= B -> Rabs y <= B -> Rabs th <= B -> Rabs vx <= B -> Rabs vy <= B -> Rabs w <= B ->
    rot2d_follows m (s_inertia S) (s_acc S) (s_vel S) n h [x; y; th; vx; vy; w]
      [clipR (-1) 1 fx; clipR (-1) 1 fy; clipR (- s_moment S) (s_moment S) mz] s' ->
    steers ((1 + H * K) * F + e) s' (steer1 S h fx fy mz p).
  Proof.
    intros F0 Hh Tw Dx Dy Dth Dvx Dvy Dw Bx By Bth Bvx Bvy Bw. destruct s' as [|x' [|y' [|th' [|vx' [|vy' [|w' [|? ?]]]]]]]; try contradiction.
    intros ([Fx Ex] & [Fy Ey] & [Fth Eth] & [Fvx Evx] & [Fvy Evy] & [Fw Ew]).
    destruct K_parts as (n2 & n1 & im & EK). pose proof K1 as K1. pose proof Qpos as Qp. pose proof (Rabs_pos m) as Pm.
    assert (KB : K <= K * B) by (rewrite <- (Rmult_1_r K) at 1; apply Rmult_le_compat_l; lra).
    pose proof (moment_rate mz) as Mr. pose proof (clip_unit fx) as Ux. pose proof (clip_unit fy) as Uy.
    set (ux := clipR (-1) 1 fx) in *. set (uy := clipR (-1) 1 fy) in *. set (uz := clipR (- s_moment S) (s_moment S) mz) in *.
    assert (HF : 0 <= H * F) by (apply Rmult_le_pos; lra).
    assert (HKF : (1 + H * K) * F = F + H * (K * F)) by ring.
    assert (hF : forall a, 0 <= a <= K -> h * (a * F) <= H * (K * F)).
    { intros a A. apply Rmult_le_compat; [lra|apply Rmult_le_pos; lra|lra|apply Rmult_le_compat_r; lra]. }
    assert (BB : forall a, Rabs a <= B -> Rabs a <= K * B) by (intros a A; assert (1 * B <= K * B) by (apply Rmult_le_compat_r; lra); lra).
    assert (Lin : forall a v tv, Rabs (v - tv) <= F -> 0 <= Rabs a <= K -> Rabs (h * (a * (v - tv))) <= h * (Rabs a * F)).
    { intros a v tv D A. rewrite !Rabs_mult, (Rabs_pos_eq h) by lra. apply Rmult_le_compat_l; [lra|]. apply Rmult_le_compat_l; lra. }
    unfold steers, steer1. cbn [tx ty tth tvx tvy tw]. fold ux uy uz m n.
    split; [repeat constructor; assumption|].
    assert (Pos : forall (a' : f64) a ta v tv, Rabs (B2R a' - (a + h * v)) <= single_error a h (Rabs v) -> Rabs (a - ta) <= F -> Rabs (v - tv) <= F -> Rabs a <= B -> Rabs v <= B ->
      Rabs (B2R a' - (ta + h * tv)) <= (1 + H * K) * F + e).
    { intros a' a ta v tv A1 A2 A3 A4 A5. pose proof (local' a h (Rabs v) A4 Hh ltac:(split; [apply Rabs_pos|]; pose proof (BB _ A5); lra)) as Lo.
      eapply Rle_trans; [apply (tri3 _ _ _ _ _ _ _ A1 A2 (Lin 1 v tv A3 ltac:(rewrite Rabs_R1; lra)))|].
      - ring.
      - rewrite Rabs_R1. pose proof (hF 1 ltac:(lra)). lra. }
    split; [eapply Pos; eassumption|]. split; [eapply Pos; eassumption|].
    split.
    { replace (tw p) with (clipR (- s_vel S) (s_vel S) (tw p)) by (apply Rabs_le_inv in Tw; unfold clipR, Rmin, Rmax; repeat destruct (Rle_dec _ _); lra).
      pose proof (local th h (Rabs w) Bth Hh ltac:(split; [apply Rabs_pos|]; pose proof (BB _ Bw); lra)) as Lo.
      pose proof (clipR_near (- s_vel S) (s_vel S) w (tw p)) as Cn. set (c1 := clipR _ _ w) in *. set (c2 := clipR _ _ (tw p)) in *.
      assert (Hc : Rabs (h * (c1 - c2)) <= h * (1 * F)) by (rewrite Rabs_mult, (Rabs_pos_eq h) by lra; apply Rmult_le_compat_l; lra).
      destruct (angle_step F _ (F + e) th (tth p) (B2R th') (h * c1) Dth Eth) as [k Hk]; [lra|]. exists k.
      replace (B2R th' - (tth p + h * c2 + 2 * IZR k * PI)) with ((B2R th' - (tth p + h * c1 + 2 * IZR k * PI)) + h * (c1 - c2)) by ring.
      eapply Rle_trans; [apply Rabs_triang|]. pose proof (hF 1 ltac:(lra)). lra. }
    destruct (angle_cos _ _ _ Dth) as [Dc Ds].
    assert (Thr : forall a b a' b', Rabs (a - a') <= F -> Rabs (b - b') <= F -> Rabs (h * ((a * ux + b * uy) / m - (a' * ux + b' * uy) / m)) <= h * (2 * / Rabs m * F)).
    { intros a b a' b' A1 A2. rewrite Rabs_mult, (Rabs_pos_eq h) by lra. apply Rmult_le_compat_l; [lra|].
      replace ((a * ux + b * uy) / m - (a' * ux + b' * uy) / m) with (((a - a') * ux + (b - b') * uy) * / m) by (unfold Rdiv; ring).
      rewrite Rabs_mult, Rabs_inv. replace (2 * / Rabs m * F) with (2 * F * / Rabs m) by ring. apply Rmult_le_compat_r; [lra|].
      eapply Rle_trans; [apply Rabs_triang|]. rewrite !Rabs_mult.
      assert (Rabs (a - a') * Rabs ux <= F * 1) by (apply Rmult_le_compat; auto; apply Rabs_pos).
      assert (Rabs (b - b') * Rabs uy <= F * 1) by (apply Rmult_le_compat; auto; apply Rabs_pos). lra. }
    assert (Fm : 0 <= (Rabs ux + Rabs uy) / Rabs m <= 2 * / Rabs m).
    { unfold Rdiv. pose proof (Rabs_pos ux). pose proof (Rabs_pos uy). split; [apply Rmult_le_pos; lra|apply Rmult_le_compat_r; lra]. }
    assert (mB : 2 * / Rabs m <= 2 * / Rabs m * B) by (rewrite <- (Rmult_1_r (2 * / Rabs m)) at 1; apply Rmult_le_compat_l; lra).
    assert (KBe : K * B = B + 3 * n ^ 2 * B + 2 * Rabs n * B + 2 * / Rabs m * B) by (rewrite EK; ring).
    assert (KFe : H * (K * F) = H * F + H * (3 * n ^ 2 * F) + H * (2 * Rabs n * F) + H * (2 * / Rabs m * F)) by (rewrite EK; ring).
    assert (M3 : 0 <= 3 * n ^ 2) by lra.
    assert (hH : forall a, 0 <= a -> h * (a * F) <= H * (a * F)) by (intros a A; apply Rmult_le_compat_r; [apply Rmult_le_pos; lra|lra]).
    assert (X3 : Rabs (h * (3 * n ^ 2 * (x - tx p))) <= H * (3 * n ^ 2 * F)).
    { rewrite !Rabs_mult, (Rabs_pos_eq h), (Rabs_pos_eq 3), (Rabs_pos_eq (n ^ 2)) by lra. eapply Rle_trans; [|apply hH; lra].
      apply Rmult_le_compat_l; [lra|]. apply Rmult_le_compat_l; lra. }
    assert (N2 : forall v tv, Rabs (v - tv) <= F -> Rabs (h * (2 * n * (v - tv))) <= H * (2 * Rabs n * F)).
    { intros v tv D. rewrite !Rabs_mult, (Rabs_pos_eq h), (Rabs_pos_eq 2) by lra. eapply Rle_trans; [|apply hH; lra].
      apply Rmult_le_compat_l; [lra|]. apply Rmult_le_compat_l; lra. }
    assert (nB : forall v, Rabs v <= B -> 0 <= 2 * Rabs n * Rabs v <= 2 * Rabs n * B).
    { intros v Bv. pose proof (Rabs_pos v). split; [apply Rmult_le_pos; lra|apply Rmult_le_compat_l; lra]. }
    assert (xB : 0 <= 3 * n ^ 2 * Rabs x <= 3 * n ^ 2 * B) by (pose proof (Rabs_pos x); split; [apply Rmult_le_pos; lra|apply Rmult_le_compat_l; lra]).
    assert (xB' : 0 <= 3 * n ^ 2 * B) by lra. pose proof (nB vx Bvx) as nX. pose proof (nB vy Bvy) as nY.
    split; [|split].
    - pose proof (local' vx h (3 * n ^ 2 * Rabs x + 2 * Rabs n * Rabs vy + (Rabs ux + Rabs uy) / Rabs m) Bvx Hh ltac:(lra)) as Lo.
      pose proof (Thr (cos th) (- sin th) (cos (tth p)) (- sin (tth p)) Dc ltac:(replace (- sin th - - sin (tth p)) with (- (sin th - sin (tth p))) by ring; rewrite Rabs_Ropp; exact Ds)) as T.
      pose proof (hH (2 * / Rabs m) ltac:(lra)) as Hm.
      match type of Evx with Rabs ?q <= _ => set (q1 := q) in * end.
      match type of T with Rabs ?q <= _ => set (q2 := q) in * end.
      pose proof (N2 vy (tvy p) Dvy) as N2y.
      match goal with |- Rabs ?g <= _ => replace g with (q1 + (vx - tvx p) + (h * (3 * n ^ 2 * (x - tx p)) + h * (2 * n * (vy - tvy p)) + q2)) by (unfold q1, q2, Rdiv; ring) end.
      eapply Rle_trans; [apply Rabs_triang|]. eapply Rle_trans; [apply Rplus_le_compat; apply Rabs_triang|].
      pose proof (Rabs_triang (h * (3 * n ^ 2 * (x - tx p))) (h * (2 * n * (vy - tvy p)))). lra.
    - pose proof (local' vy h (2 * Rabs n * Rabs vx + (Rabs ux + Rabs uy) / Rabs m) Bvy Hh ltac:(lra)) as Lo.
      pose proof (Thr (sin th) (cos th) (sin (tth p)) (cos (tth p)) Ds Dc) as T.
      pose proof (hH (2 * / Rabs m) ltac:(lra)) as Hm.
      match type of Evy with Rabs ?q <= _ => set (q1 := q) in * end.
      match type of T with Rabs ?q <= _ => set (q2 := q) in * end.
      pose proof (N2 vx (tvx p) Dvx) as N2x. rewrite <- (Rabs_Ropp (h * _)) in N2x.
      match goal with |- Rabs ?g <= _ => replace g with (q1 + (vy - tvy p) + (- (h * (2 * n * (vx - tvx p))) + q2)) by (unfold q1, q2, Rdiv; ring) end.
      eapply Rle_trans; [apply Rabs_triang|]. eapply Rle_trans; [apply Rplus_le_compat; apply Rabs_triang|].
      assert (0 <= H * (3 * n ^ 2 * F)) by (apply Rmult_le_pos; [lra|apply Rmult_le_pos; lra]). lra.
    - rewrite stop_clip in Ew by lra.
      pose proof (local' w h (Rabs uz / Rabs (s_inertia S)) Bw Hh) as Lo. unfold Rdiv in Lo, Mr.
      assert (0 <= Rabs uz * / Rabs (s_inertia S)) by (apply Rmult_le_pos; [apply Rabs_pos|left; apply Rinv_0_lt_compat, Rabs_pos_lt, i0]).
      unfold Rdiv in Ew. specialize (Lo ltac:(lra)).
      match type of Ew with Rabs (_ - clipR _ _ (_ + ?q)) <= _ => set (q1 := q) in * end.
      pose proof (clipR_near (- s_vel S) (s_vel S) (w + q1) (tw p + q1)) as Cn. replace (w + q1 - (tw p + q1)) with (w - tw p) in Cn by ring.
      unfold Rdiv. fold q1. set (c1 := clipR _ _ (w + q1)) in *. set (c2 := clipR _ _ (tw p + q1)) in *.
      replace (B2R w' - c2) with ((B2R w' - c1) + (c1 - c2)) by ring. eapply Rle_trans; [apply Rabs_triang|].
      pose proof (Rmult_le_pos _ _ H0 (Rmult_le_pos _ _ (Rle_trans _ _ _ Rle_0_1 K1) F0)). lra.
  Qed.

  Lemma err_step k : (1 + H * K) * steer_error B H K Q k + e <= steer_error B H K Q (Datatypes.S k).
  Proof.
    unfold steer_error. fold e. rewrite S_INR. pose proof K1. pose proof e0 as e0. assert (0 <= H * K) by (apply Rmult_le_pos; lra).
    pose proof (pow_R1_Rle (1 + H * K) (Datatypes.S k) ltac:(lra)) as P. cbn [pow] in *. set (g := (1 + H * K) ^ k) in *.
    assert (1 * e <= (1 + H * K) * g * e) by (apply Rmult_le_compat_r; lra).
    replace ((INR k + 1) * ((1 + H * K) * g) * e) with ((1 + H * K) * (INR k * g * e) + (1 + H * K) * g * e) by ring. lra.
  Qed.
  Lemma err_pos k : 0 <= steer_error B H K Q k.
  Proof.
    unfold steer_error. fold e. pose proof K1. assert (0 <= H * K) by (apply Rmult_le_pos; lra).
    apply Rmult_le_pos; [apply Rmult_le_pos; [apply pos_INR|apply pow_le; lra]|apply e0].
  Qed.
  Lemma err_le k j : (k <= j)%nat -> steer_error B H K Q k <= steer_error B H K Q j.
  Proof.
    induction 1 as [|j _ IH]; [lra|]. eapply Rle_trans; [exact IH|]. eapply Rle_trans; [|apply err_step]. pose proof e0. pose proof (err_pos j). pose proof K1.
    assert (0 <= H * K) by (apply Rmult_le_pos; lra). assert (0 <= H * K * steer_error B H K Q j) by (apply Rmult_le_pos; lra). lra.
  Qed.
End E.

Lemma steer_app S l l' p : steer S p (l ++ l') = steer S (steer S p l) l'.
Proof. revert p. induction l as [|[h [[fx fy] mz]] l IH]; intros p; [reflexivity|]. cbn [app steer]. apply IH. Qed.
Lemma clip_in v a : 0 <= v -> Rabs (clipR (- v) v a) <= v.
Proof. intros V. apply Rabs_le. unfold clipR, Rmin, Rmax. repeat destruct (Rle_dec _ _); lra. Qed.
Lemma near_size a t B F : Rabs (a - t) <= F -> F <= 1 -> Rabs t <= B - 1 -> Rabs a <= B.
Proof. intros D F1 T. replace a with ((a - t) + t) by ring. eapply Rle_trans; [apply Rabs_triang|]. lra. Qed.
Lemma in90 (a : f64) B : is_finite a = true -> Rabs (B2R a) <= B -> B <= bpow radix2 90 -> SpecRound.within 90 a.
Proof. intros A C D. split; [exact A|lra]. Qed.

Section R.
  Context (lm : libm).
  Local Existing Instance F64.
  Let N : Num f64 := F64 lm.
  Local Existing Instance N.

  Lemma steer_run (w : world f64) m inertia al vl iw aw vw acc vel n samples jax x0 y0 th0 vx0 vy0 wz0 e0 s0 acts e x y th vx vy wz B H Q l :
    accurate lm -> rot2d_spacecraft w m inertia al vl iw aw vw n samples "Euler" jax x0 y0 th0 vx0 vy0 wz0 = Ok e0 ->
    rot2d_limit al iw aw inertia = Ok acc -> rot2d_limit vl iw vw inertia = Ok vel ->
    run w (set_state e0 s0) acts = Ok e -> (samples <= 0)%Z ->
    is_finite m = true -> bpow radix2 (-100) <= Rabs (B2R m) -> SpecRound.within 40 inertia -> bpow radix2 (-100) <= B2R inertia ->
    SpecRound.within 40 acc -> SpecRound.within 40 vel -> 0 <= B2R acc -> 0 <= B2R vel -> SpecRound.within 0 n ->
    Forall (fun a : f64 => is_finite a = true) [x; y; th; vx; vy; wz] -> e_state e = A1 [x; y; th; vx; vy; wz] ->
    Rabs (B2R th) <= B -> Rabs (B2R wz) <= B2R vel -> 4 <= B <= bpow radix2 90 -> 0 <= H ->
    let M := B2R (nmul acc inertia) in
    0 <= M <= Q * B2R inertia ->
    let S := {| s_mass := B2R m; s_inertia := B2R inertia; s_acc := B2R acc; s_vel := B2R vel; s_moment := M; s_n := B2R n |} in
    let p := {| tx := B2R x; ty := B2R y; tth := B2R th; tvx := B2R vx; tvy := B2R vy; tw := B2R wz |} in
    let E := steer_error B H (steer_lip (B2R m) (B2R n)) Q in
    Forall (steer_ok H) l -> E (length l) <= 1 ->
    (forall l1 l2, l = l1 ++ l2 -> sized (B - 1) (steer S p (map steer_num l1))) ->
    exists e' s', run w e (map steer_act l) = Ok e' /\ e_state e' = A1 s' /\ steers (E (length l)) s' (steer S p (map steer_num l)).
  Proof.
    intros Ac Ec La Lv Rn Sa Fm Hm Wi Hi Wa Wv A0 V0 Wn Fs Es Bth Bw HB H0 M HM S p E.
    assert (P100 : 0 < bpow radix2 (-100)) by apply bpow_gt_0.
    assert (m0 : B2R m <> 0) by (intros Q0; rewrite Q0, Rabs_R0 in Hm; lra).
    assert (i0 : B2R inertia <> 0) by lra.
    assert (Hi' : bpow radix2 (-100) <= Rabs (B2R inertia)) by (rewrite Rabs_pos_eq; lra).
    assert (Q0 : Rabs (s_moment S) <= Q * Rabs (s_inertia S)) by (cbn [s_moment s_inertia S]; rewrite !Rabs_pos_eq; lra).
    intros Hl El Hp.
    cut (exists e' x' y' th' vx' vy' w', run w e (map steer_act l) = Ok e' /\ e_state e' = A1 [x'; y'; th'; vx'; vy'; w'] /\
      steers (E (length l)) [x'; y'; th'; vx'; vy'; w'] (steer S p (map steer_num l)) /\ Rabs (B2R th') <= B /\ Rabs (tw (steer S p (map steer_num l))) <= B2R vel).
    { intros (e' & x' & y' & th' & vx' & vy' & w' & R1 & R2 & R3 & _). exists e', [x'; y'; th'; vx'; vy'; w']. auto. }
    revert Hl El Hp. induction l as [|[h [[fx fy] mz]] l IH] using rev_ind; intros Hl El Hp.
    - exists e, x, y, th, vx, vy, wz. split; [reflexivity|]. split; [exact Es|]. split; [|split; assumption]. cbn [map steer length]. split; [exact Fs|].
      assert (E0 : E 0%nat = 0) by (unfold E, steer_error; cbn [INR]; ring). rewrite E0. cbn [p tx ty tth tvx tvy tw].
      assert (Z : forall a, Rabs (a - a) <= 0) by (intros a; unfold Rminus; rewrite Rplus_opp_r, Rabs_R0; lra).
      repeat (split; [first [apply Z|exists 0%Z; replace (B2R th - (B2R th + 2 * 0 * PI)) with (B2R th - B2R th) by ring; apply Z]|]). apply Z.
    - apply Forall_app in Hl. destruct Hl as [Hl Hc]. apply Forall_inv in Hc. destruct Hc as (Wh & Hh & Fc).
      rewrite app_length in El |- *. cbn [length] in El |- *. rewrite Nat.add_1_r in El |- *.
      assert (Ee : E (length l) <= 1).
      { eapply Rle_trans; [|exact El]. apply (err_le S B H Q m0 (proj1 HB) H0 Q0 i0). lia. }
      destruct IH as (e1 & x1 & y1 & th1 & vx1 & vy1 & w1 & R1 & R2 & R3 & R4 & R5).
      { exact Hl. } { exact Ee. } { intros l1 l2 ->. apply (Hp l1 (l2 ++ [(h, (fx, fy, mz))])). rewrite app_assoc. reflexivity. }
      pose proof (Hp l _ eq_refl) as Sz. rewrite !map_app, steer_app. set (q := steer S p (map steer_num l)) in *.
      unfold sized in Sz. rewrite !Forall_cons_iff in Sz. destruct Sz as (Sx & Sy & Svx & Svy & Sw & _).
      destruct R3 as (F1 & Dx & Dy & Dth & Dvx & Dvy & Dw). rewrite !Forall_cons_iff in F1. destruct F1 as (G1 & G2 & G3 & G4 & G5 & G6 & _).
      pose proof (near_size _ _ _ _ Dx Ee Sx) as Bx1. pose proof (near_size _ _ _ _ Dy Ee Sy) as By1. pose proof (near_size _ _ _ _ Dvx Ee Svx) as Bvx1.
      pose proof (near_size _ _ _ _ Dvy Ee Svy) as Bvy1. pose proof (near_size _ _ _ _ Dw Ee Sw) as Bw1.
      assert (Rn1 : run w (set_state e0 s0) (acts ++ map steer_act l) = Ok e1) by (rewrite (run_app _ _ _ _ _ Rn); exact R1).
      destruct (rot2d_round_turn lm w m inertia al vl iw aw vw acc vel n samples jax x0 y0 th0 vx0 vy0 wz0 e0 s0 _ e1 h x1 y1 th1 vx1 vy1 w1 fx fy mz Ac Ec La Lv Rn1 Sa Fm Hm Wi Hi' Wa Wv A0 V0 Wn Wh)
        as (s' & O & T1 & T2 & T3).
      { repeat (constructor; [eapply in90; [eassumption|eassumption|apply HB]|]). constructor. } { exact Fc. } { exact R2. }
      pose proof (steer_one S B H Q m0 (proj1 HB) H0 V0 Q0 i0 (proj1 HM) (E (length l)) q (B2R h) (B2R fx) (B2R fy) (B2R mz) _ _ _ _ _ _ s'
        (err_pos S B H Q m0 (proj1 HB) H0 Q0 i0 _) Hh R5 Dx Dy Dth Dvx Dvy Dw Bx1 By1 R4 Bvx1 Bvy1 Bw1 T2) as St.
      destruct s' as [|x' [|y' [|th' [|vx' [|vy' [|w' [|? ?]]]]]]]; try contradiction.
      eexists _, x', y', th', vx', vy', w'. split; [|split; [exact T1|split; [|split]]].
      + rewrite (run_app _ _ _ _ _ R1). cbn [map steer_act run]. set (o := entity_step _ _ _ _) in *. rewrite O. reflexivity.
      + cbn [map steer_num steer]. destruct St as (G & A1 & A2 & [k A3] & A4 & A5 & A6). pose proof (err_step S B H Q m0 (proj1 HB) H0 Q0 i0 (length l)) as Es'.
        fold (E (length l)) in Es'. split; [exact G|]. unfold E.
        repeat (split; [first [eapply Rle_trans; [eassumption|exact Es']|exists k; eapply Rle_trans; [exact A3|exact Es']]|]). eapply Rle_trans; [eassumption|exact Es'].
      + cbn [nth] in T3. destruct HB. lra.
      + cbn [map steer_num steer steer1 tw]. apply clip_in, V0.
  Qed.
End R.
