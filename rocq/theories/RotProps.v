(** Corollaries for the 2d rotational spacecraft in the form of the properties. *)
From Coq Require Import String List Bool Arith ZArith Lia Reals Lra.
From Flocq Require Import Core.Core IEEE754.BinarySingleNaN.
From Verif Require Import PyBase Num Arr BaseModel Cwh Rot2d Spec SpecBase SpecWrap XReal Float64 NumOrdLemmas ArrLemmas
  BaseLemmas BaseLemmas2 BaseLemmas3 BaseLemmas4 WrapLemmas XTac SpecRk SpecCwh RkLemmas CwhLemmas LimLemmas Rot2dLemmas.
Import List ListNotations.
Local Open Scope R_scope.

Lemma rot2d_ideal (w : world xr) m inertia acc vel n samples method jax d : m <> 0 -> inertia <> 0 ->
  rot2d_dyn (N := XR Fin) w (Fin m) (Fin inertia) (Fin acc) (Fin vel) (Fin n) samples method jax = Ok d ->
  forall t x y th vx vy wz fx fy mz, - vel < wz < vel -> - acc <= mz / inertia <= acc ->
    compute_state_dot (N := XR Fin) d t (A1 (map Fin [x; y; th; vx; vy; wz])) (A1 (map Fin [fx; fy; mz])) = Ok (A1 (map Fin
      [vx; vy; wz; 3 * n^2 * x + 2 * n * vy + (cos th * fx - sin th * fy) / m;
       - 2 * n * vx + (sin th * fx + cos th * fy) / m; mz / inertia])).
Proof.
  intros Hm Hi E t x y th vx vy wz fx fy mz Hw Ha.
  pose proof (rot2d_csd (fun x => x) w m inertia acc vel n _ _ _ d Hm Hi E t x y th vx vy wz fx fy mz) as Q.
  etransitivity; [exact Q|]. cbn [rot2d_rate map]. rewrite Rplus_0_l.
  rewrite !clipR_id by lra. unfold stopR. destruct (Rle_dec vel wz); [lra|]. destruct (Rle_dec wz (- vel)); [lra|]. reflexivity.
Qed.

Lemma rot2d_example :
  exists d, rot2d_dyn (N := XR Fin) (euler_world (N := XR Fin)) (Fin 2) (Fin 1) (Fin 1) (Fin 3) (Fin 1) 0 "Euler" false = Ok d /\
    compute_state_dot (N := XR Fin) d (Fin 0) (A1 (map Fin [1; 0; PI / 2; 0; 0; 5])) (A1 (map Fin [1; 0; 1 / 2]))
    = Ok (A1 (map Fin [0; 0; 3; 3; 1 / 2; 0])).
Proof.
  destruct (rot2d_dyn (N := XR Fin) (euler_world (N := XR Fin)) (Fin 2) (Fin 1) (Fin 1) (Fin 3) (Fin 1) 0 "Euler" false)
    as [d|] eqn:E.
  - exists d. split; [reflexivity|]. etransitivity; [apply (rot2d_csd (fun x => x) _ 2 1 1 3 1 _ _ _ _ ltac:(lra) ltac:(lra) E)|].
    cbn [rot2d_rate map]. rewrite cos_PI2, sin_PI2. fin_list; try field; unfold clipR, stopR, Rmin, Rmax;
      repeat match goal with |- context [Rle_dec ?a ?b] => destruct (Rle_dec a b); try lra end.
  - exfalso. unfold rot2d_dyn, generate_cwh_matrices, pydiv in E. revert E. xstep. discriminate.
Qed.

Section X.
  Variable rd : R -> R.
  Local Hint Extern 0 (Num xr) => exact (XR (fun x => Fin (rd x))) : typeclass_instances.

  Lemma rot2d_magnitude (w : world xr) m inertia acc vel n samples method jax d : m <> 0 -> inertia <> 0 ->
    rot2d_dyn w (Fin m) (Fin inertia) (Fin acc) (Fin vel) (Fin n) samples method jax = Ok d ->
    forall t x y th vx vy wz fx fy mz,
      exists ax ay bx by_ sd sd0,
        compute_state_dot d t (A1 (map Fin [x; y; th; vx; vy; wz])) (A1 (map Fin [fx; fy; mz])) = Ok sd /\
        compute_state_dot d t (A1 (map Fin [x; y; th; vx; vy; wz])) (A1 (map Fin [0; 0; mz])) = Ok sd0 /\
        bnth sd 3 = Some (Fin ax) /\ bnth sd 4 = Some (Fin ay) /\
        bnth sd0 3 = Some (Fin bx) /\ bnth sd0 4 = Some (Fin by_) /\
        (ax - bx)^2 + (ay - by_)^2 = (fx^2 + fy^2) / m^2.
  Proof.
    intros Hm Hi E t x y th vx vy wz fx fy mz.
    pose proof (rot2d_csd rd w m inertia acc vel n _ _ _ d Hm Hi E t x y th vx vy wz fx fy mz) as Q1.
    pose proof (rot2d_csd rd w m inertia acc vel n _ _ _ d Hm Hi E t x y th vx vy wz 0 0 mz) as Q2.
    do 6 eexists. split; [exact Q1|]. split; [exact Q2|]. cbn.
    do 4 (split; [reflexivity|]).
    pose proof (sin2_cos2 th) as SC. unfold Rsqr in SC.
    assert (K : forall X Y c s, s * s + c * c = 1 ->
       (X + (c * fx - s * fy) / m - (X + (c * 0 - s * 0) / m)) * ((X + (c * fx - s * fy) / m - (X + (c * 0 - s * 0) / m)) * 1) +
       (Y + (s * fx + c * fy) / m - (Y + (s * 0 + c * 0) / m)) * ((Y + (s * fx + c * fy) / m - (Y + (s * 0 + c * 0) / m)) * 1)
       = (fx * (fx * 1) + fy * (fy * 1)) / (m * (m * 1))).
    { intros X Y c s H. transitivity ((s * s + c * c) * (fx^2 + fy^2) / m^2); [field; auto|]. rewrite H. field; auto. }
    apply K. exact SC.
  Qed.

  Lemma rot2d_euler_craft (w : world xr) m inertia al vl iw aw vw n samples jax x0 y0 th0 vx0 vy0 wz0 e :
    m <> 0 -> 0 < inertia -> (samples <= 0)%Z ->
    rot2d_spacecraft w (Fin m) (Fin inertia) (Fin al) (Fin vl) (Fin iw) (Fin aw) (Fin vw) (Fin n) samples "Euler" jax
      x0 y0 th0 vx0 vy0 wz0 = Ok e ->
    forall x y th vx vy wz fx fy mz h,
      e_state e = A1 (map Fin [x; y; th; vx; vy; wz]) ->
      let acc := Rmin al (iw * aw / inertia) in
      let vel := Rmin vl (iw * vw / inertia) in
      let gx := clipR (-1) 1 fx in let gy := clipR (-1) 1 fy in
      let gz := clipR (- acc * inertia) (acc * inertia) mz in
      let o := entity_step w e (Fin h) (AArr (A1 (map Fin [fx; fy; mz]))) in
      o_res o = Ok tt /\
      exists th',
        e_state (o_entity o) = A1 (map Fin
          [x + h * rd (rd vx); y + h * rd (rd vy); th';
           vx + h * (rd (3 * n^2 * rd x + 2 * n * rd vy) + (cos th * gx - sin th * gy) / m);
           vy + h * (rd (- 2 * n * rd vx) + (sin th * gx + cos th * gy) / m);
           clipR (- vel) vel (wz + h * stopR (- vel) vel wz (clipR (- acc) acc (rd 0 + gz / inertia)))]) /\
        - PI <= th' < PI /\ same_angle th' (th + h * clipR (- vel) vel (rd wz)).
  Proof.
    intros Hm Hi Sa E x y th vx vy wz fx fy mz h Es acc vel gx gy gz o.
    destruct (rot2d_limits rd _ _ _ _ _ _ _ _ _ _ _ _ _ _ _ _ _ _ _ Hi E) as (D & C1 & C2).
    fold acc vel in D, C1, C2.
    destruct (rot2d_euler rd w m inertia acc vel n samples e h [x; y; th; vx; vy; wz] [fx; fy; mz] Hm (Rgt_not_eq _ _ Hi) Sa jax D
      eq_refl eq_refl Es _ _ C1 C2 eq_refl eq_refl) as (R1 & _ & R3).
    split; [exact R1|]. exists (wrapR 0 (th + h * clipR (- vel) vel (rd wz))). split; [exact R3|].
    set (q := th + h * clipR (- vel) vel (rd wz)). split.
    - pose proof (wrapR_range 0 q). lra.
    - destruct (wrapR_turns 0 q) as [k Hk]. exists (- k)%Z. rewrite opp_IZR. lra.
  Qed.

  Lemma rot2d_combined (w : world xr) m inertia al vl iw aw vw n samples method jax x y th vx vy wz e :
    0 < inertia ->
    rot2d_spacecraft w (Fin m) (Fin inertia) (Fin al) (Fin vl) (Fin iw) (Fin aw) (Fin vw) n samples method jax
      x y th vx vy wz = Ok e ->
    let acc := Rmin al (iw * aw / inertia) in
    let vel := Rmin vl (iw * vw / inertia) in
    bnth (d_min (e_dyn e)) 5 = Some (Fin (- vel)) /\ bnth (d_max (e_dyn e)) 5 = Some (Fin vel) /\
    bnth (d_sdmin (e_dyn e)) 5 = Some (Fin (- acc)) /\ bnth (d_sdmax (e_dyn e)) 5 = Some (Fin acc) /\
    bnth (e_cmin e) 2 = Some (Fin (- acc * inertia)) /\ bnth (e_cmax e) 2 = Some (Fin (acc * inertia)).
  Proof.
    intros Hi E acc vel. destruct (rot2d_limits rd _ _ _ _ _ _ _ _ _ _ _ _ _ _ _ _ _ _ _ Hi E) as (D & -> & ->).
    destruct (rot2d_dyn_inv _ _ _ _ _ _ _ _ _ _ D) as (-> & -> & -> & -> & _). repeat split.
  Qed.

  Lemma rot2d_heading (w : world xr) m inertia al vl iw aw vw n samples method jax x y th vx vy wz e acts e' r :
    rot2d_spacecraft w m inertia al vl iw aw vw n samples method jax x y th vx vy wz = Ok e ->
    acts <> [] -> run w e acts = Ok e' -> bnth (e_state e') 2 = Some (Fin r) -> - PI <= r < PI.
  Proof.
    intros E Ne H Hr. destruct (run_last _ _ _ _ Ne H) as (e1 & h & a & (Cd & _) & R & ->).
    destruct (rot2d_craft_inv _ _ _ _ _ _ _ _ _ _ _ _ _ _ _ _ _ _ _ E) as (qa & qv & _ & _ & D & _).
    destruct (rot2d_dyn_inv _ _ _ _ _ _ _ _ _ _ D) as (_ & _ & _ & _ & D5 & _).
    destruct (wrap0_finite _ w e1 h a _ 2 _ R ltac:(rewrite Cd; exact D5) ltac:(rewrite <- (n0_Fin (fun x => Fin (rd x))); reflexivity) Hr)
      as (x1 & _ & [(rx & ry & _ & Q & B & _)|(_ & Q)]); [|discriminate].
    injection Q as ->. exact B.
  Qed.
End X.

Lemma rot2d_heading64 (lm : libm) (w : world f64) m inertia al vl iw aw vw n samples method jax x y th vx vy wz e acts e' r :
  rot2d_spacecraft (N := F64 lm) w m inertia al vl iw aw vw n samples method jax x y th vx vy wz = Ok e ->
  acts <> [] -> run (N := F64 lm) w e acts = Ok e' -> bnth (e_state e') 2 = Some r ->
  nisnan (Num := F64 lm) r = true \/
  (nleb (Num := F64 lm) (nneg (Num := F64 lm) (npi (Num := F64 lm))) r = true /\
   nleb (Num := F64 lm) r (npi (Num := F64 lm)) = true).
Proof.
  intros E Ne H Hr. destruct (run_last _ _ _ _ Ne H) as (e1 & h & a & (Cd & _) & R & ->).
  destruct (rot2d_craft_inv _ _ _ _ _ _ _ _ _ _ _ _ _ _ _ _ _ _ _ E) as (qa & qv & _ & _ & D & _).
  destruct (rot2d_dyn_inv _ _ _ _ _ _ _ _ _ _ D) as (_ & _ & _ & _ & D5 & _).
  eapply (wrap64_step_range lm w e1 h a _ 2%nat); [exact R|rewrite Cd; exact D5|reflexivity|exact Hr].
Qed.

Lemma rot2d_limit_example :
  exists e e', rot2d_spacecraft (N := XR Fin) (euler_world (N := XR Fin)) (Fin 2) (Fin 1) (Fin 1) (Fin 3) (Fin (1 / 50))
      (Fin 100) (Fin 100) (Fin 1) 0 "Euler" false (Fin 0) (Fin 0) (Fin 0) (Fin 0) (Fin 0) (Fin 0) = Ok e /\
    run (N := XR Fin) (euler_world (N := XR Fin)) e (repeat (Fin 1, AArr (A1 (map Fin [0; 0; 7]))) 3) = Ok e' /\
    exists r, bnth (e_state e') 5 = Some (Fin r) /\ r = 2.
Proof.
  match goal with |- exists e e', ?c = Ok e /\ _ => destruct c as [e|] eqn:E end.
  2:{ exfalso. unfold rot2d_spacecraft, rot2d_limit, rot2d_dyn, generate_cwh_matrices, pydiv in E. revert E. xstep. discriminate. }
  set (w := euler_world) in *.
  assert (S : forall k e0 l, same_config e0 e -> e_state e0 = A1 (map Fin l) -> length l = 6%nat ->
    exists e1 l1, run (N := XR Fin) w e0 (repeat (Fin 1, AArr (A1 (map Fin [0; 0; 7]))) k) = Ok e1 /\
      same_config e1 e /\ e_state e1 = A1 (map Fin l1) /\ length l1 = 6%nat /\
      nth 5 l1 0 = Nat.iter k (fun r => clipR (- (2)) 2 (r + 1 * stopR (- (2)) 2 r (clipR (- (1)) 1 (0 + clipR (- (1) * 1) (1 * 1) 7 / 1)))) (nth 5 l 0)).
  { assert (H1 : 0 < 1) by lra. destruct (rot2d_limits (fun x => x) _ _ _ _ _ _ _ _ _ _ _ _ _ _ _ _ _ _ _ H1 E) as (D & C1 & C2).
    replace (Rmin 1 (1 / 50 * 100 / 1)) with 1 in * by (rewrite Rmin_left; lra).
    replace (Rmin 3 (1 / 50 * 100 / 1)) with 2 in * by (rewrite Rmin_right; lra).
    induction k; intros e0 l C L Ll.
    - exists e0, l. cbn. repeat (split; [first [reflexivity|assumption]|]). reflexivity.
    - destruct C as (Cd & C).
      destruct (rot2d_euler (fun x => x) w 2 1 1 2 1 0 e0 1 l [0; 0; 7] ltac:(lra) ltac:(lra) ltac:(lia) false ltac:(rewrite Cd; exact D)
        Ll eq_refl L [-1; -1; - (1) * 1] [1; 1; 1 * 1]) as (R1 & _ & R3).
      1,2: destruct C as (C3 & C4 & C5 & C6); congruence. 1,2: reflexivity.
      cbn [repeat run]. change (XR (fun x => Fin x)) with (XR Fin) in *.
      rewrite R1. cbn [bind].
      assert (SC : same_config (o_entity (entity_step (N := XR Fin) w e0 (Fin 1) (AArr (A1 (map Fin [0; 0; 7]))))) e).
      { eapply same_config_trans; [apply (@entity_step_config xr (XR Fin))|split; [exact Cd|exact C]]. }
      edestruct (IHk _ _ SC R3) as (e1 & l1 & Q1 & Q2 & Q3 & Q4 & Q5).
      { destruct l as [|? [|? [|? [|? [|? [|? []]]]]]]; try discriminate. reflexivity. }
      exists e1, l1. repeat (split; [assumption|]). rewrite Q5. clear - Ll.
      destruct l as [|? [|? [|? [|? [|? [|r []]]]]]]; try discriminate. cbn [nth rot2d_next rot2d_rate zipw].
      match goal with |- _ = Nat.iter _ ?f _ => change (Nat.iter k f (f r) = Nat.iter (S k) f r); generalize f end.
      intros f. clear. revert r. induction k as [|k IH]; intros r; [reflexivity|]. cbn in *. f_equal. apply IH. }
  destruct (rot2d_craft_inv _ _ _ _ _ _ _ _ _ _ _ _ _ _ _ _ _ _ _ E) as (qa & qv & _ & _ & _ & _ & _ & _ & Es & _).
  destruct (S 3%nat e [0; 0; 0; 0; 0; 0] ltac:(repeat split) Es eq_refl) as (e1 & l1 & Q1 & _ & Q3 & Q4 & Q5).
  exists e, e1. split; [reflexivity|]. split; [exact Q1|].
  exists (nth 5 l1 0). split.
  - rewrite Q3. destruct l1 as [|? [|? [|? [|? [|? [|r []]]]]]]; try discriminate. reflexivity.
  - rewrite Q5. match goal with |- Nat.iter _ ?g _ = _ => set (f := g) end.
    assert (C : clipR (- (1)) 1 (0 + clipR (- (1) * 1) (1 * 1) 7 / 1) = 1).
    { assert (C0 : clipR (- (1) * 1) (1 * 1) 7 = 1) by (unfold clipR; rewrite (Rmax_left 7), Rmin_right; lra).
      rewrite C0. apply Rmin_right. rewrite Rmax_left; lra. }
    assert (F : forall r, -2 < r <= 1 -> f r = r + 1).
    { intros r Hr. unfold f. rewrite C. unfold stopR. destruct (Rle_dec 2 r); [lra|]. destruct (Rle_dec r (- (2))); [lra|].
      rewrite clipR_id; lra. }
    change (Nat.iter 3 f (nth 5 [0; 0; 0; 0; 0; 0] 0)) with (f (f (f 0))). rewrite (F 0), (F (0 + 1)) by lra.
    unfold f. rewrite C. unfold stopR. destruct (Rle_dec 2 (0 + 1 + 1)); [|lra]. rewrite (Rmin_right 1 0) by lra.
    rewrite clipR_id; lra.
Qed.
