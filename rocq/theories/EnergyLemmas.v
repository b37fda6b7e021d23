(** Energy of the relative orbit under exact motion and under Euler steps. *)
From Coq Require Import String List Bool Arith ZArith Lia Reals Lra.
From Coquelicot Require Import Coquelicot.
From Verif Require Import PyBase Num Arr BaseModel Spec SpecBase XReal NumOrdLemmas ArrLemmas BaseLemmas
  BaseLemmas2 BaseLemmas3 BaseLemmas4 XTac Cwh SpecRk RkLemmas SpecCwh CwhLemmas SpecFlow FlowLemmas OrbitLemmas SpecEnergy.
Import List ListNotations.
Local Open Scope R_scope.

Lemma blow_up_exp n hs : blow_up n hs <= exp (n^2 * sum_squares hs).
Proof.
  induction hs as [|h hs IH]; cbn [blow_up sum_squares fold_right].
  - rewrite Rmult_0_r, exp_0. lra.
  - fold (blow_up n hs); fold (sum_squares hs). rewrite Rmult_plus_distr_l, exp_plus.
    assert (P : 0 < blow_up n hs). { clear. induction hs; cbn; [lra|]. apply Rmult_lt_0_compat; auto. nra. }
    apply Rmult_le_compat; [nra|lra| |exact IH].
    replace ((n * h)^2) with (n^2 * h^2) by ring. apply exp_ineq1_le.
Qed.
Lemma blow_up_repeat n h k : blow_up n (repeat h k) = (1 + (n * h)^2)^k.
Proof.
  induction k as [|k IH]; [reflexivity|]. rewrite <- tech_pow_Rmult, <- IH. reflexivity.
Qed.

Lemma map_repeat' {A B} (f : A -> B) a k : map f (repeat a k) = repeat (f a) k.
Proof. induction k; cbn; congruence. Qed.

Section X.
  Variable r32 : R -> xr.
  Local Hint Extern 0 (Num xr) => exact (XR r32) : typeclass_instances.

  Lemma energy_exact m n samples method d sol : m <> 0 -> n <> 0 -> cwh_dyn (Fin m) (Fin n) samples method = Ok d ->
    length (sol 0) = 6%nat -> solves d (A1 (map Fin [0; 0; 0])) sol ->
    forall t, in_plane n (sol t) = in_plane n (sol 0) /\ cross_track n (sol t) = cross_track n (sol 0).
  Proof.
    intros Hm Hn Ed L0 S t. rewrite (sol_flow r32 m n samples method d sol Hm Hn Ed L0 S t).
    destruct (len6 _ L0) as (x & y & z & vx & vy & vz & ->). cbv [in_plane cross_track cw_flow nth].
    pose proof (sin2_cos2 (n * t)) as SC. unfold Rsqr in SC.
    set (s := sin (n * t)) in *. set (c := cos (n * t)) in *. clearbody s c.
    split.
    - transitivity ((vx^2 + (3 * n * x + 2 * vy)^2) * (s * s + c * c)); [field; auto|rewrite SC; ring].
    - transitivity ((vz^2 + (n * z)^2) * (s * s + c * c)); [field; auto|rewrite SC; ring].
  Qed.

  Lemma energy_run (w : world xr) m n samples a1 a2 a3 a4 a5 a6 e0 : m <> 0 -> (samples <= 0)%Z ->
    cwh_spacecraft (Fin m) (Fin n) samples "Euler" a1 a2 a3 a4 a5 a6 = Ok e0 ->
    forall hs e s, e_dyn e = e_dyn e0 -> e_cmin e = e_cmin e0 -> e_cmax e = e_cmax e0 -> length s = 6%nat ->
    e_state e = A1 (map Fin s) ->
    exists e' s', run w e (map (fun h => (Fin h, AArr (A1 (map Fin [0; 0; 0])))) hs) = Ok e' /\
      e_state e' = A1 (map Fin s') /\ length s' = 6%nat /\
      in_plane n s' = in_plane n s * blow_up n hs /\ cross_track n s' = cross_track n s * blow_up n hs.
  Proof.
    intros Hm Sa E. induction hs as [|h hs IH]; intros e s De C1 C2 L Es.
    - exists e, s. cbn [blow_up fold_right]. repeat split; auto; ring.
    - destruct (cwh_spacecraft_dyn r32 _ _ _ _ _ _ _ _ _ _ _ E) as (Ed & _ & Cmi & Cma & _).
      destruct (cwh_plain r32 _ _ _ _ _ Ed) as (H1 & H2 & H3 & H4 & H5 & H6 & H7).
      destruct (len6 s L) as (x & y & z & vx & vy & vz & Es').
      destruct (euler_exact r32 w e h s [Fin 0; Fin 0; Fin 0] [Fin 0; Fin 0; Fin 0]
        (cwF n 0 0 0 s)) as (O & Q & _); rewrite ?De, ?C1, ?C2, ?Cmi, ?Cma; auto.
      + congruence.
      + exact I.
      + exact I.
      + change [Fin 0; Fin 0; Fin 0] with (map Fin [0; 0; 0]). rewrite np_clip_scalar. cbn [map].
        rewrite !clipR_id by lra. reflexivity.
      + rewrite Es', cwF_eq. cbn [map].
        rewrite (cwh_raw r32 m n _ _ _ Hm Ed _ x y z vx vy vz 0 0 0). do 2 f_equal.
        replace (0 / m) with 0 by (unfold Rdiv; ring). reflexivity.
      + rewrite cwF_len; auto.
      + pose proof (entity_step_config w e (Fin h) (AArr (A1 (map Fin [0; 0; 0])))) as (K1 & _ & K3 & K4 & _).
        rewrite map_cons. cbn [map] in O, Q, K1, K3, K4.
        cbn [run]. cbn [map]. set (o := entity_step _ _ _ _) in *. rewrite O. cbn [bind].
        destruct (IH (o_entity o) (vaxpy s h (cwF n 0 0 0 s))) as (e' & s' & R1 & R2 & R3 & R4 & R5); try congruence.
        * rewrite len_vaxpy; auto. rewrite cwF_len; auto.
        * exists e', s'. split; [exact R1|]. split; [exact R2|]. split; [exact R3|].
          rewrite R4, R5. cbn [blow_up fold_right]. fold (blow_up n hs).
          rewrite Es', cwF_eq. cbv [in_plane cross_track vaxpy zipw nth]. split; ring.
  Qed.

  Lemma energy_craft (w : world xr) m n samples a1 a2 a3 a4 a5 a6 e0 s hs : m <> 0 -> (samples <= 0)%Z ->
    cwh_spacecraft (Fin m) (Fin n) samples "Euler" a1 a2 a3 a4 a5 a6 = Ok e0 -> length s = 6%nat ->
    exists e' s', run w (set_state e0 (A1 (map Fin s))) (map (fun h => (Fin h, AArr (A1 (map Fin [0; 0; 0])))) hs) = Ok e' /\
      e_state e' = A1 (map Fin s') /\ length s' = 6%nat /\
      in_plane n s' = in_plane n s * blow_up n hs /\ cross_track n s' = cross_track n s * blow_up n hs.
  Proof. intros Hm Sa E L. eapply energy_run; eauto. Qed.
End X.

Lemma euler_unbounded (w : world xr) : exists e0 : entity xr,
  cwh_spacecraft (N := XR Fin) (Fin 12) (Fin (1/1000)) 0 "Euler" (Fin 0) (Fin 0) (Fin 0) (Fin 0) (Fin 0) (Fin 0) = Ok e0 /\
  forall B, exists k e' s',
    run (N := XR Fin) w (set_state e0 (A1 (map Fin [0; 0; 1; 0; 0; 0]))) (repeat (Fin 1, AArr (A1 (map Fin [0; 0; 0]))) k) = Ok e' /\
    e_state e' = A1 (map Fin s') /\ (B < Rabs (nth 2 s' 0) \/ B < Rabs (nth 5 s' 0)).
Proof.
  destruct (cwh_spacecraft (N := XR Fin) (Fin 12) (Fin (1/1000)) 0 "Euler" (Fin 0) (Fin 0) (Fin 0) (Fin 0) (Fin 0) (Fin 0)) as [e|] eqn:E.
  2:{ exfalso. unfold cwh_spacecraft, cwh_dyn, generate_cwh_matrices, pydiv in E. revert E. xstep. discriminate. }
  exists e. split; [reflexivity|]. intros B.
  destruct (Pow_x_infinity (1 + (1/1000 * 1)^2) ltac:(rewrite Rabs_right; lra) (4 * 1000000 * (B^2 + 1))) as (k & Hk).
  specialize (Hk k (le_n k)). rewrite Rabs_right in Hk by (apply Rle_ge, pow_le; lra).
  destruct (energy_craft Fin w 12 (1/1000) 0 _ _ _ _ _ _ e [0; 0; 1; 0; 0; 0] (repeat 1 k) ltac:(lra) (Z.le_refl 0) E eq_refl)
    as (e' & s' & R1 & R2 & _ & _ & R5).
  exists k, e', s'. split.
  { rewrite map_repeat' in R1. exact R1. }
  split; [exact R2|]. rewrite blow_up_repeat in R5. set (u := (1 + (1/1000 * 1)^2)^k) in *. clearbody u.
  unfold cross_track in R5. cbn [nth] in R5. set (z := nth 2 s' 0) in *. set (v := nth 5 s' 0) in *. clearbody z v.
  destruct (Rlt_dec B (Rabs z)) as [|N1]; [left; auto|]. destruct (Rlt_dec B (Rabs v)) as [|N2]; [right; auto|]. exfalso.
  assert (Qz : z^2 <= B^2). { rewrite <- (pow2_abs z). pose proof (Rabs_pos z). nra. }
  assert (Qv : v^2 <= B^2). { rewrite <- (pow2_abs v). pose proof (Rabs_pos v). nra. }
  nra.
Qed.

Lemma blow_up_ge n hs : 1 <= blow_up n hs.
Proof. induction hs as [|h hs IH]; cbn [blow_up fold_right]; [lra|]. fold (blow_up n hs). pose proof (pow2_ge_0 (n * h)). nra. Qed.

Local Hint Extern 0 (Num xr) => exact (XR Fin) : typeclass_instances.
Lemma C92_ex : exists e e',
  cwh_spacecraft (N := XR Fin) (Fin 12) (Fin (1/1000)) 0 "Euler" (Fin 0) (Fin 0) (Fin 1) (Fin 0) (Fin 0) (Fin 0) = Ok e /\
  run (N := XR Fin) euler_world (set_state e (A1 (map Fin [0; 0; 1; 0; 0; 0])))
    [(Fin 1000, AArr (A1 (map Fin [0; 0; 0]))); (Fin 1000, AArr (A1 (map Fin [0; 0; 0])))] = Ok e' /\
  e_state e' = A1 (map Fin [0; 0; 0; 0; 0; -2/1000]) /\
  cross_track (1/1000) [0; 0; 0; 0; 0; -2/1000] = 4 * cross_track (1/1000) [0; 0; 1; 0; 0; 0].
Proof.
  assert (X : exists e, cwh_spacecraft (N := XR Fin) (Fin 12) (Fin (1/1000)) 0 "Euler" (Fin 0) (Fin 0) (Fin 1) (Fin 0) (Fin 0) (Fin 0) = Ok e).
  { unfold cwh_spacecraft, cwh_dyn, generate_cwh_matrices, pydiv. xstep. eexists; reflexivity. }
  destruct X as (e & E). exists e.
  destruct (cwh_spacecraft_dyn Fin _ _ _ _ _ _ _ _ _ _ _ E) as (Ed & _ & Cmi & Cma & _).
  destruct (cwh_plain Fin _ _ _ _ _ Ed) as (H1 & H2 & H3 & H4 & H5 & H6 & H7).
  assert (St : forall (f : entity xr) s h, e_dyn f = e_dyn e -> e_cmin f = e_cmin e -> e_cmax f = e_cmax e -> length s = 6%nat ->
    e_state f = A1 (map Fin s) ->
    let o := entity_step (N := XR Fin) euler_world f (Fin h) (AArr (A1 (map Fin [0; 0; 0]))) in
    o_res o = Ok tt /\ e_state (o_entity o) = A1 (map Fin (vaxpy s h (cwF (1/1000) 0 0 0 s)))).
  { intros f s h De C1 C2 L Es. destruct (len6 s L) as (x & y & z & vx & vy & vz & Es').
    destruct (euler_exact Fin euler_world f h s [Fin 0; Fin 0; Fin 0] [Fin 0; Fin 0; Fin 0]
        (cwF (1/1000) 0 0 0 s)) as (O & Q & _); rewrite ?De, ?C1, ?C2, ?Cmi, ?Cma; auto.
    + rewrite H7. lia.
    + exact I.
    + exact I.
    + change [Fin 0; Fin 0; Fin 0] with (map Fin [0; 0; 0]). rewrite np_clip_scalar. cbn [map].
      rewrite !clipR_id by lra. reflexivity.
    + rewrite Es', cwF_eq. cbn [map].
      rewrite (cwh_raw Fin 12 (1/1000) _ _ _ ltac:(lra) Ed _ x y z vx vy vz 0 0 0). do 2 f_equal.
      replace (0 / 12) with 0 by (unfold Rdiv; ring). reflexivity.
    + rewrite cwF_len; auto. }
  set (e1 := set_state e (A1 (map Fin [0; 0; 1; 0; 0; 0]))).
  destruct (St e1 [0; 0; 1; 0; 0; 0] 1000 eq_refl eq_refl eq_refl eq_refl eq_refl) as (O1 & Q1).
  pose proof (entity_step_config (N := XR Fin) euler_world e1 (Fin 1000) (AArr (A1 (map Fin [0; 0; 0])))) as (K1 & _ & K3 & K4 & _).
  set (o1 := entity_step _ _ _ _) in *.
  destruct (St (o_entity o1) _ 1000 K1 K3 K4 (eq_refl : length (vaxpy [0; 0; 1; 0; 0; 0] 1000 (cwF (1/1000) 0 0 0 [0; 0; 1; 0; 0; 0])) = 6%nat) Q1) as (O2 & Q2).
  exists (o_entity (entity_step (N := XR Fin) euler_world (o_entity o1) (Fin 1000) (AArr (A1 (map Fin [0; 0; 0]))))).
  split; [exact E|]. split.
  { cbn [run]. fold o1. rewrite O1. cbn [bind]. rewrite O2. reflexivity. }
  split.
  - rewrite Q2. rewrite cwF_eq. cbv [vaxpy zipw]. rewrite cwF_eq. cbn [map]. do 2 f_equal; fin_list; field.
  - unfold cross_track. cbn [nth]. field.
Qed.
