(** What constructors accept; the state is all that matters. *)
From Coq Require Import String List Bool Arith ZArith Lia Reals Lra.
From Flocq Require Import Core.Core.
From Coquelicot Require Import Coquelicot.
From Verif Require Import PyBase Num Arr BaseModel Spec SpecBase XReal NumOrdLemmas ArrLemmas BaseLemmas
  BaseLemmas2 BaseLemmas3 BaseLemmas4 XTac Cwh Rot2d SixDof Dubins Integ SpecWrap WrapLemmas SpecRk RkLemmas SpecCwh CwhLemmas
  SpecInteg IntegLemmas LimLemmas Rot2dLemmas CommandLemmas ConvLemmas Float64.
Import List ListNotations.
Local Open Scope R_scope.

Section All.
  Context {T : Type} {N : Num T}.

  (** Which masses are accepted. *)
  Lemma pydiv_ok (a b : T) : is_ok (pydiv a b) = negb (neqb b n0).
  Proof. unfold pydiv. destruct (neqb b n0); reflexivity. Qed.
  Lemma cwh_accepts m n samples method : is_ok (cwh_dyn m n samples method) = negb (neqb m n0).
  Proof.
    unfold cwh_dyn, generate_cwh_matrices, pydiv. cbn [String.eqb Ascii.eqb Bool.eqb].
    destruct (neqb m n0); reflexivity.
  Qed.
  Lemma integ_accepts m c mode samples method : In mode ["1d"; "2d"; "3d"]%string ->
    is_ok (integ_dyn m c mode samples method) = negb (neqb m n0).
  Proof.
    intros [<- | [<- | [<- | []]]]; unfold integ_dyn, generate_dynamics_matrices, pydiv; cbn [String.eqb Ascii.eqb Bool.eqb];
      destruct (neqb m n0); reflexivity.
  Qed.
  Lemma sixdof_accepts m (I : mat3 T) vel n body samples method :
    is_ok (sixdof_dyn m I vel n body samples method) = negb (neqb m n0).
  Proof.
    unfold sixdof_dyn, generate_cwh_matrices, pydiv. destruct vel as [[v0 v1] v2]. cbn [String.eqb Ascii.eqb Bool.eqb].
    destruct (neqb m n0); reflexivity.
  Qed.
  Lemma rot2d_accepts (w : world T) m inertia al vl iw aw vw n samples method jax x y th vx vy wz :
    is_ok (rot2d_spacecraft w m inertia al vl iw aw vw n samples method jax x y th vx vy wz) =
    negb (neqb inertia n0) && negb (jax && negb (w_jax w)) && negb (neqb m n0).
  Proof.
    unfold rot2d_spacecraft, rot2d_limit, pydiv. destruct (neqb inertia n0); [reflexivity|]. cbn [bind].
    unfold rot2d_dyn. destruct (jax && negb (w_jax w)); [reflexivity|]. cbn [negb andb].
    unfold generate_cwh_matrices, pydiv. cbn [String.eqb Ascii.eqb Bool.eqb].
    destruct (neqb m n0); reflexivity.
  Qed.
End All.

Local Hint Extern 0 (Num xr) => exact (XR Fin) : typeclass_instances.

Lemma neg_mass : exists e,
  cwh_spacecraft (Fin (-1)) (Fin 0) 0 "Euler" (Fin 0) (Fin 0) (Fin 0) (Fin 0) (Fin 0) (Fin 0) = Ok e /\
  forall w : world xr, let o := entity_step w e (Fin 1) (AArr (A1 [Fin 1; Fin 0; Fin 0])) in
  o_res o = Ok tt /\ e_state (o_entity o) = A1 (map Fin [0; 0; 0; -1; 0; 0]).
Proof.
  match goal with |- exists e, ?c = Ok e /\ _ => destruct c as [e|] eqn:E end.
  2:{ exfalso. assert (Q := cwh_accepts (Fin (-1)) (Fin 0) 0 "Euler"). unfold cwh_spacecraft in E.
      destruct (cwh_dyn _ _ _ _); [discriminate|]. cbn in Q. rewrite Req_bool_false in Q by lra. discriminate. }
  exists e. split; [reflexivity|]. intros w o.
  destruct (cwh_spacecraft_dyn Fin _ _ _ _ _ _ _ _ _ _ _ E) as (_ & Es & _).
  assert (Es' : e_state e = A1 (map Fin [0; 0; 0; 0; 0; 0])).
  { unfold cwh_spacecraft in E. destruct (cwh_dyn _ _ _ _); [|discriminate]. injection E as <-. reflexivity. }
  destruct (cwh_euler Fin w (-1) 0 0 e 1 0 0 0 0 0 0 1 0 0 _ _ _ _ _ _ ltac:(lra) (Z.le_refl 0) E ltac:(lra) ltac:(lra) ltac:(lra) Es') as (O & St & _).
  split; [exact O|]. etransitivity; [exact St|]. cbn [map].
  assert (Q : forall a b c d f g, a = 0 -> b = 0 -> c = 0 -> d = -1 -> f = 0 -> g = 0 ->
    A1 [Fin a; Fin b; Fin c; Fin d; Fin f; Fin g] = A1 [Fin 0; Fin 0; Fin 0; Fin (-1); Fin 0; Fin 0]) by (intros; subst; reflexivity).
  apply Q; field.
Qed.

(** Minimum speed above maximum speed: after any history every Euler step ends at the maximum. *)
Lemma crossed_speeds (w : world xr) samples v_min v_max hr_min hr_max acc_min acc_max x0 y0 hd0 v0 acts e h x y hd v hr acc :
  v_max < v_min -> (samples <= 0)%Z ->
  run w (dubins2d_aircraft samples "Euler" (Fin v_min) (Fin v_max) (Fin hr_min) (Fin hr_max) (Fin acc_min) (Fin acc_max) x0 y0 hd0 v0) acts = Ok e ->
  e_state e = A1 (map Fin [x; y; hd; v]) ->
  let o := entity_step w e (Fin h) (AArr (A1 (map Fin [hr; acc]))) in
  o_res o = Ok tt /\ d2_v (o_entity o) = Ok (Fin v_max).
Proof.
  intros Hv Sa Rn Es o.
  destruct (dubins2d_euler (fun x => x) w samples v_min v_max hr_min hr_max acc_min acc_max x0 y0 hd0 v0 acts e h x y hd v hr acc eq_refl Sa Rn Es)
    as (O & _ & hd' & _ & _ & St). split; [exact O|]. unfold d2_v.
  assert (Q : e_state (o_entity o) = A1 (map Fin [x + h * (v * cos hd); y + h * (v * sin hd); hd';
     clipR v_min v_max (v + h * stopR v_min v_max v (clipR acc_min acc_max acc))])) by exact St.
  rewrite Q. cbn. do 2 f_equal. unfold clipR. apply Rmin_right. eapply Rle_trans; [|apply Rmax_r]. lra.
Qed.

(** Negative inertia: the heading changes at a fixed rate whatever the state and the command. *)
Lemma neg_inertia (w : world xr) m inertia al vl iw aw vw n samples jax x0 y0 th0 vx0 vy0 wz0 e0 acts e h x y th vx vy wz fx fy mz :
  m <> 0 -> inertia < 0 -> 0 <= vl -> 0 < iw -> 0 < vw -> (samples <= 0)%Z ->
  rot2d_spacecraft w (Fin m) (Fin inertia) (Fin al) (Fin vl) (Fin iw) (Fin aw) (Fin vw) (Fin n) samples "Euler" jax x0 y0 th0 vx0 vy0 wz0 = Ok e0 ->
  run w e0 acts = Ok e -> e_state e = A1 (map Fin [x; y; th; vx; vy; wz]) ->
  let o := entity_step w e (Fin h) (AArr (A1 (map Fin [fx; fy; mz]))) in
  o_res o = Ok tt /\ aidx (e_sdot (o_entity o)) 2 = Ok (Fin (iw * vw / inertia)) /\ iw * vw / inertia < 0.
Proof.
  intros Hm Hi Hv Hw Hvw Sa E Rn Es o.
  destruct (rot2d_craft_inv _ _ _ _ _ _ _ _ _ _ _ _ _ _ _ _ _ _ _ E) as (qa & qv & P1 & P2 & D & C1 & C2 & _).
  unfold pydiv in P1, P2. cbn in P1, P2. rewrite Req_bool_false in P1, P2 by lra. cbn in P1, P2.
  rewrite Req_bool_false in P1, P2 by lra. injection P1 as <-. injection P2 as <-.
  assert (M : forall a b, py_min (Fin a) (Fin b) = Fin (Rmin a b)).
  { intros a b. unfold py_min. cbn. unfold Rmin. destruct (Rlt_bool_spec b a), (Rle_dec a b); f_equal; lra. }
  rewrite !M in *. 
  assert (Neg : iw * vw / inertia < 0).
  { assert (0 < iw * vw) by nra. apply Ropp_lt_cancel. rewrite Ropp_0. replace (- (iw * vw / inertia)) with (iw * vw / - inertia) by (field; lra).
    apply Rdiv_lt_0_compat; lra. }
  assert (Mv : Rmin vl (iw * vw / inertia) = iw * vw / inertia) by (apply Rmin_right; lra). rewrite Mv in *.
  pose proof (run_config _ _ _ _ Rn) as (Ed & _ & E1 & E2 & _). rewrite <- Ed in D. rewrite <- E1 in C1. rewrite <- E2 in C2.
  set (acc := Rmin al (iw * aw / inertia)) in *.
  assert (C1' : e_cmin e = A1 (map Fin [-1; -1; - acc * inertia])).
  { rewrite C1. cbn. replace (-1/1) with (-1) by field. reflexivity. }
  assert (C2' : e_cmax e = A1 (map Fin [1; 1; acc * inertia])).
  { rewrite C2. cbn. replace (1/1) with 1 by field. reflexivity. }
  destruct (rot2d_euler (fun x => x) w m inertia acc (iw * vw / inertia) n samples e h [x; y; th; vx; vy; wz] [fx; fy; mz] Hm ltac:(lra) Sa jax D
    eq_refl eq_refl Es _ _ C1' C2' eq_refl eq_refl) as (O & Sd & _).
  split; [exact O|]. split; [|exact Neg].
  match type of Sd with _ = ?r => assert (Q : e_sdot (o_entity o) = r) by exact Sd end. rewrite Q. cbn [zipw fst snd rot2d_rate map aidx nth_error].
  do 2 f_equal. unfold clipR. apply Rmin_right. eapply Rle_trans; [|apply Rmax_r]. lra.
Qed.

Lemma zero_mass n samples method : is_ok (cwh_dyn (N := XR Fin) (Fin 0) n samples method) = false.
Proof. rewrite cwh_accepts. cbn. rewrite Req_bool_true by lra. reflexivity. Qed.
