(** The state is all that matters for the future. *)
From Coq Require Import String List Bool Arith ZArith Lia Reals.
From Flocq Require Import Core.Core IEEE754.BinarySingleNaN.
From Verif Require Import PyBase Num Arr BaseModel SpecBase BaseLemmas XTac Cwh Float64 SpecRestore.
Import List ListNotations.

Section All.
  Context {T : Type} {N : Num T}.

  Lemma alike_step (w : world T) e1 e2 h a : alike e1 e2 ->
    let o1 := entity_step w e1 h a in let o2 := entity_step w e2 h a in
    o_res o1 = o_res o2 /\ o_warned o1 = o_warned o2 /\ alike (o_entity o1) (o_entity o2) /\
    (o_res o1 = Ok tt -> e_sdot (o_entity o1) = e_sdot (o_entity o2)) /\
    (o_res o1 = Ok tt -> d_method (e_dyn e1) = "RK45"%string -> e_traj (o_entity o1) = e_traj (o_entity o2)).
  Proof.
    intros ((Ed & E0 & E1 & E2 & E3) & Es) o1 o2.
    assert (C1 := entity_step_config w e1 h a). assert (C2 := entity_step_config w e2 h a). fold o1 in C1. fold o2 in C2.
    assert (SC : same_config (o_entity o1) (o_entity o2)).
    { unfold same_config in *. intuition congruence. }
    assert (De : decode_action w e1 a = decode_action w e2 a).
    { destruct a; cbn [decode_action]; rewrite ?E0, ?E3; reflexivity. }
    subst o1 o2. unfold entity_step in *. rewrite De in *. destruct (decode_action w e2 a) as [c|x].
    2:{ cbn. repeat split; auto; discriminate. }
    rewrite E1, E2 in *. destruct (out_of_bounds c (e_cmin e2) (e_cmax e2)) as [b|x].
    2:{ cbn. repeat split; auto; discriminate. }
    destruct (np_clip c (e_cmin e2) (e_cmax e2)) as [c'|x].
    2:{ cbn. repeat split; auto; discriminate. }
    assert (D : snd (dyn_step w (e_dyn e1) (e_traj e1) h (e_state e1) c') = snd (dyn_step w (e_dyn e2) (e_traj e2) h (e_state e2) c') /\
      (is_ok (snd (dyn_step w (e_dyn e1) (e_traj e1) h (e_state e1) c')) = true -> d_method (e_dyn e1) = "RK45"%string ->
       fst (dyn_step w (e_dyn e1) (e_traj e1) h (e_state e1) c') = fst (dyn_step w (e_dyn e2) (e_traj e2) h (e_state e2) c'))).
    { rewrite <- Ed, <- Es. unfold dyn_step, dyn__step. destruct (String.eqb (d_method (e_dyn e1)) "RK45") eqn:Me.
      - destruct (w_solve_ivp w _ _ _ _) as [sol|]; [|split; [reflexivity|discriminate]].
        destruct (sol_y sol); [split; [reflexivity|discriminate]|]. split; reflexivity.
      - assert (Nm : d_method (e_dyn e1) <> "RK45"%string) by (intros Q; rewrite Q in Me; discriminate).
        destruct (String.eqb (d_method (e_dyn e1)) "RK45_JAX"); [split; [reflexivity|tauto]|].
        destruct (String.eqb (d_method (e_dyn e1)) "Euler"); split; try reflexivity; tauto. }
    destruct D as (D1 & D2). destruct (dyn_step w (e_dyn e1) (e_traj e1) h (e_state e1) c') as [tr1 r1].
    destruct (dyn_step w (e_dyn e2) (e_traj e2) h (e_state e2) c') as [tr2 r2]. cbn [fst snd] in D1, D2. subst r2.
    destruct r1 as [[s' sd]|x]; cbn in *; unfold alike; repeat split; auto; try discriminate; try apply SC.
  Qed.

  Lemma alike_exec (w : world T) l : forall e1 e2, alike e1 e2 -> alike (exec_all w e1 l) (exec_all w e2 l).
  Proof.
    induction l as [|o l IH]; intros e1 e2 A; [exact A|]. cbn. apply IH. destruct o as [h a|v]; cbn [exec].
    - apply alike_step, A.
    - destruct A as (C & _). split; [exact C|reflexivity].
  Qed.

  Lemma alike_run (w : world T) acts : forall e1 e2, alike e1 e2 ->
    runs_alike (fun f1 f2 => acts <> [] -> e_sdot f1 = e_sdot f2 /\ (d_method (e_dyn e1) = "RK45"%string -> e_traj f1 = e_traj f2))
      (run w e1 acts) (run w e2 acts).
  Proof.
    induction acts as [|[h a] acts IH]; intros e1 e2 A; [cbn; split; [exact A|congruence]|].
    destruct (alike_step w e1 e2 h a A) as (R & _ & A' & S & Tr). cbn [run]. 
    assert (Dm : e_dyn (o_entity (entity_step w e1 h a)) = e_dyn e1) by apply entity_step_config.
    rewrite <- R. destruct (o_res (entity_step w e1 h a)) as [[]|x]; cbn [bind]; [|cbn; auto].
    specialize (IH _ _ A'). unfold runs_alike in *. 
    destruct (run w (o_entity (entity_step w e1 h a)) acts) as [f1|] eqn:R1, (run w (o_entity (entity_step w e2 h a)) acts) as [f2|] eqn:R2; auto.
    destruct IH as (A2 & P). split; [exact A2|]. intros _. destruct acts as [|b acts].
    - cbn in R1, R2. injection R1 as <-. injection R2 as <-. split; [apply S; auto|]. intros M. apply Tr; auto.
    - rewrite Dm in P. apply P. discriminate.
  Qed.

  (** Saving the state of an entity and restoring it into one with another past. *)
  Lemma restore (w : world T) e past1 past2 acts :
    let saved := e_state (exec_all w e past1) in
    runs_alike (fun f1 f2 => acts <> [] -> e_sdot f1 = e_sdot f2)
      (run w (exec_all w e past1) acts) (run w (set_state (exec_all w e past2) saved) acts).
  Proof.
    intros saved. assert (A : alike (exec_all w e past1) (set_state (exec_all w e past2) saved)).
    { split; [|reflexivity]. pose proof (exec_all_config w past1 e) as C1. pose proof (exec_all_config w past2 e) as C2.
      unfold same_config in *. cbn. intuition congruence. }
    pose proof (alike_run w acts _ _ A) as H. unfold runs_alike in *.
    destruct (run w (exec_all w e past1) acts), (run w (set_state (exec_all w e past2) saved) acts); auto.
    destruct H as (H1 & H2). split; [exact H1|]. intros Q. apply H2, Q.
  Qed.

  (** Rebuilding from the numbers of the state. *)
  Lemma rebuild m n samples method x0 y0 z0 xd0 yd0 zd0 e0 x y z vx vy vz :
    cwh_spacecraft m n samples method x0 y0 z0 xd0 yd0 zd0 = Ok e0 ->
    exists e, cwh_spacecraft m n samples method x y z vx vy vz = Ok e /\
      same_config e e0 /\ e_state e = A1 (map nf32 [x; y; z; vx; vy; vz]).
  Proof.
    unfold cwh_spacecraft. destruct (cwh_dyn m n samples method) as [d|]; [|discriminate]. cbn [bind]. intros E. injection E as <-.
    eexists. split; [reflexivity|]. split; [repeat split|reflexivity].
  Qed.
End All.

Lemma rebuild_refuted : exists (e0 e1 e2 : entity f64) x y z vx vy vz,
  let N := F64 lm0 in
  cwh_spacecraft (N := N) (fl 12 1) (fl 0 1) 0 "Euler" (fl 0 1) (fl 0 1) (fl 0 1) (fl 1 1) (fl 0 1) (fl 0 1) = Ok e0 /\
  run (N := N) (euler_world (N := N)) e0 [(fl 1 10, AArr (A1 [fl 0 1; fl 0 1; fl 0 1]))] = Ok e1 /\
  e_state e1 = A1 [x; y; z; vx; vy; vz] /\
  cwh_spacecraft (N := N) (fl 12 1) (fl 0 1) 0 "Euler" x y z vx vy vz = Ok e2 /\
  e_state e2 <> e_state e1.
Proof.
  destruct (cwh_spacecraft (N := F64 lm0) (fl 12 1) (fl 0 1) 0 "Euler" (fl 0 1) (fl 0 1) (fl 0 1) (fl 1 1) (fl 0 1) (fl 0 1)) as [e0|] eqn:E0.
  2:{ exfalso. assert (Q : is_ok (cwh_spacecraft (N := F64 lm0) (fl 12 1) (fl 0 1) 0 "Euler" (fl 0 1) (fl 0 1) (fl 0 1) (fl 1 1) (fl 0 1) (fl 0 1)) = true)
        by (vm_compute; reflexivity). rewrite E0 in Q. discriminate. }
  assert (Ok1 : is_ok (e0 <- cwh_spacecraft (N := F64 lm0) (fl 12 1) (fl 0 1) 0 "Euler" (fl 0 1) (fl 0 1) (fl 0 1) (fl 1 1) (fl 0 1) (fl 0 1) ;;
    o_res (entity_step (N := F64 lm0) (euler_world (N := F64 lm0)) e0 (fl 1 10) (AArr (A1 [fl 0 1; fl 0 1; fl 0 1])))) = true)
    by (vm_compute; reflexivity).
  let t := constr:(e0 <- cwh_spacecraft (N := F64 lm0) (fl 12 1) (fl 0 1) 0 "Euler" (fl 0 1) (fl 0 1) (fl 0 1) (fl 1 1) (fl 0 1) (fl 0 1) ;;
    Ok (amap (fun x => (B2SF x, B2SF (f64_f32 x))) (e_state (o_entity (entity_step (N := F64 lm0) (euler_world (N := F64 lm0)) e0 (fl 1 10) (AArr (A1 [fl 0 1; fl 0 1; fl 0 1]))))))) in
  let v := eval vm_compute in t in assert (St : t = v) by (vm_compute; reflexivity).
  rewrite E0 in Ok1, St. cbn [bind] in Ok1, St.
  set (o := entity_step (N := F64 lm0) _ e0 _ _) in *. 
  destruct (e_state (o_entity o)) as [q|l] eqn:Es; [discriminate|]. injection St as St.
  destruct l as [|x [|y [|z [|vx [|vy [|vz [|? l]]]]]]]; try discriminate. cbn in St.
  destruct (rebuild (N := F64 lm0) _ _ _ _ _ _ _ _ _ _ _ x y z vx vy vz E0) as (e2 & E2 & _ & S2).
  exists e0, (o_entity o), e2, x, y, z, vx, vy, vz. cbv zeta. split; [exact E0|].
  split; [cbn [run]; fold o; destruct (o_res o) as [[]|]; [reflexivity|discriminate]|].
  split; [exact Es|]. split; [exact E2|]. rewrite S2, Es. intros Q. injection Q as Q _. injection St as St1 St2 _.
  cbn [nf32 F64] in Q. rewrite Q, St1 in St2. discriminate.
Qed.
