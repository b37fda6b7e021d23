(** Remaining lemmas and witnesses for the base properties. *)
From Coq Require Import String List Bool Arith ZArith Lia Reals Lra.
From Flocq Require Import Core.Core IEEE754.BinarySingleNaN.
From Verif Require Import PyBase Num Arr BaseModel Spec SpecBase SpecWrap XReal Float64 NumOrdLemmas ArrLemmas
  BaseLemmas BaseLemmas2 BaseLemmas3 BaseLemmas4 WrapLemmas F64Wrap Cwh Rot2d SixDof Sun Integ Dubins XTac Witness.
Import ListNotations.

Section G.
  Context {T : Type} {N : Num T}.

  Lemma step_dict_exact (w : world T) (e : entity T) h items cmap dflt :
    e_cmap e = Some cmap -> e_default e = A1 dflt -> cmap_ok cmap (length dflt) ->
    NoDup (map fst items) ->
    (forall name v, In (name, v) items -> dict_get name cmap <> None) ->
    exists c, dict_control cmap items dflt c /\
      (forall c', dict_control cmap items dflt c' -> c' = c) /\
      entity_step w e h (ADict items) = entity_step w e h (AArr (A1 c)).
  Proof.
    intros A B C D E. destruct (step_dict w e h items cmap dflt A B C D E) as (c & S & Q).
    exists c. split; [exact S|]. split; [|exact Q]. intros c' S'.
    eapply dict_control_unique; eassumption.
  Qed.

  Lemma step_dict_nomap (w : world T) (e : entity T) h items :
    e_cmap e = None ->
    entity_step w e h (ADict items) = {| o_entity := e; o_warned := false; o_res := Err AssertionError |}.
  Proof. intros H. unfold entity_step. simpl. rewrite H. reflexivity. Qed.

  Lemma step_default (w : world T) (e : entity T) h :
    entity_step w e h ANone = entity_step w e h (AArr (e_default e)) /\
    (e_cmap e <> None -> entity_step w e h ANone = entity_step w e h (ADict [])).
  Proof.
    split; [reflexivity|]. intros H. apply entity_step_decode. simpl.
    destruct (e_cmap e); [reflexivity|congruence].
  Qed.

  Lemma default_stable (w : world T) (e : entity T) (l : list (op T)) h :
    e_default (exec_all w e l) = e_default e /\
    entity_step w (exec_all w e l) h ANone = entity_step w (exec_all w e l) h (AArr (e_default e)).
  Proof.
    destruct (exec_all_config w l e) as (_ & E & _). split; [exact E|].
    apply entity_step_decode. simpl. rewrite E. reflexivity.
  Qed.

  Lemma step_list_f32 (w : world T) (e : entity T) h l :
    entity_step w e h (AList l) = entity_step w e h (AArr (A1 (map nf32 l))).
  Proof. apply entity_step_decode. reflexivity. Qed.

  Lemma step_list (w : world T) (e : entity T) h l :
    (forall x, In x l -> nf32 x = x) ->
    entity_step w e h (AList l) = entity_step w e h (AArr (A1 l)).
  Proof.
    intros H. rewrite step_list_f32. do 3 f_equal. rewrite <- (map_id l) at 2.
    apply map_ext_in. exact H.
  Qed.

  Lemma failed_step (w : world T) (e : entity T) h a x :
    o_res (entity_step w e h a) = Err x ->
    let e' := o_entity (entity_step w e h a) in
    e_state e' = e_state e /\ e_sdot e' = e_sdot e /\ same_config e' e /\
    (d_method (e_dyn e) <> "RK45"%string -> e' = e).
  Proof.
    intros H e'. destruct (entity_step_err _ _ _ _ _ H) as [A B].
    split; [exact A|]. split; [exact B|]. split; [apply entity_step_config|].
    intros M. pose proof (entity_step_traj w e h a M) as C.
    destruct (entity_step_config w e h a) as (C1 & C2 & C3 & C4 & C5).
    subst e'. destruct (o_entity (entity_step w e h a)), e. simpl in *. congruence.
  Qed.

  Lemma step_other (w : world T) (e : entity T) h :
    entity_step w e h AOther = {| o_entity := e; o_warned := false; o_res := Err ValueError |}.
  Proof. reflexivity. Qed.

  Lemma reported_derivative (w : world T) (e : entity T) h a :
    d_method (e_dyn e) = "RK45"%string ->
    o_res (entity_step w e h a) = Ok tt ->
    let e' := o_entity (entity_step w e h a) in
    exists c c' rows q ts, decode_action w e a = Ok c /\ np_clip c (e_cmin e) (e_cmax e) = Ok c' /\
      e_traj e' = Some (rows ++ [q], ts) /\
      compute_state_dot (e_dyn e) h (A1 q) c' = Ok (e_sdot e') /\
      (e_state e' = A1 q -> compute_state_dot (e_dyn e) h (e_state e') c' = Ok (e_sdot e')).
  Proof.
    intros M H e'.
    destruct (rk45_step w e h a M H) as (c & c' & te & sol & rows & q & m & A & B & _ & _ & Y & Tr & Sd & _).
    exists c, c', rows, q, (sol_t sol). subst e'. rewrite Tr, Y. repeat split; auto.
    intros E. rewrite E. exact Sd.
  Qed.

  Lemma trajectory_recorded (w : world T) (e : entity T) h a :
    d_method (e_dyn e) = "RK45"%string ->
    o_res (entity_step w e h a) = Ok tt ->
    exists f te sol, w_solve_ivp w f h (e_state e) te = Ok sol /\
      e_traj (o_entity (entity_step w e h a)) = Some (sol_y sol, sol_t sol).
  Proof.
    intros M H.
    destruct (rk45_step w e h a M H) as (c & c' & te & sol & rows & q & m & A & B & _ & S & Y & Tr & Sd & _).
    eauto.
  Qed.

  Lemma euler_step_saturates {O : NumOrd T} (w : world T) (e : entity T) h a :
    d_method (e_dyn e) = "Euler"%string ->
    o_res (entity_step w e h a) = Ok tt ->
    limits_ok (d_min (e_dyn e)) (d_max (e_dyn e)) ->
    exists sd, e_sdot (o_entity (entity_step w e h a)) = sd /\
      forall i y, bnth (e_state (o_entity (entity_step w e h a))) i = Some y ->
        (forall c, d_wrap (e_dyn e) = Some c -> exists cc, bnth c i = Some cc /\ nisnan cc = true) ->
        exists x di lo hi, bnth (e_state e) i = Some x /\ bnth sd i = Some di /\
          bnth (d_min (e_dyn e)) i = Some lo /\ bnth (d_max (e_dyn e)) i = Some hi /\
          saturates lo hi (nadd x (nmul h di)) y.
  Proof.
    intros M H L. destruct (euler_step w e h a M H) as (c & c' & sd & _ & _ & _ & Es & Q).
    exists sd. split; [exact Es|]. intros i y Y W.
    destruct (Q i y Y) as (x & di & lo & hi & X & D & Lo & Hi & E).
    exists x, di, lo, hi. repeat split; auto.
    assert (E' : y = clip1 (nadd x (nmul h di)) lo hi).
    { destruct (d_wrap (e_dyn e)) as [wc|]; [|exact E].
      destruct (W wc eq_refl) as (cc & C & Nc). rewrite C, Nc in E. exact E. }
    rewrite E'. apply clip1_saturates. eapply L; eassumption.
  Qed.

  Lemma constructor_accepts (w : world T) (d : dyn T) : d_use_jax d = false -> mk_dyn w d = Ok d.
  Proof. unfold mk_dyn. intros ->. reflexivity. Qed.

  Lemma rejected_configs {O : NumOrd T} (w : world T) (e : entity T) h c :
    fits (e_cmin e) c -> fits (e_cmax e) c ->
    let d := e_dyn e in
    let o := entity_step w e h (AArr c) in
    (d_method d <> "RK45"%string -> d_method d <> "RK45_JAX"%string -> d_method d <> "Euler"%string ->
       o_res o = Err ValueError /\ o_entity o = e) /\
    (d_method d = "RK45_JAX"%string -> d_use_jax d = false -> o_res o = Err ValueError /\ o_entity o = e) /\
    (d_method d = "RK45_JAX"%string -> d_use_jax d = true -> (0 < d_samples d)%Z ->
       o_res o = Err AssertionError /\ o_entity o = e) /\
    (d_method d = "Euler"%string -> (0 < d_samples d)%Z -> o_res o = Err AssertionError /\ o_entity o = e).
  Proof.
    intros F1 F2 d o.
    assert (G : forall x, bad_config d = Some x -> o_res o = Err x /\ o_entity o = e).
    { intros x B. apply (dispatch_step w e h c x B F1 F2). }
    split; [|split; [|split]]; intros; apply G; unfold bad_config.
    1: destruct (String.eqb_spec (d_method d) "RK45"), (String.eqb_spec (d_method d) "RK45_JAX"),
      (String.eqb_spec (d_method d) "Euler"); congruence.
    1: rewrite H; simpl; rewrite H0; reflexivity.
    1: rewrite H; simpl; rewrite H0; rewrite (proj2 (Z.ltb_lt _ _)) by assumption; reflexivity.
    1: rewrite H; simpl; rewrite (proj2 (Z.ltb_lt _ _)) by assumption; reflexivity.
  Qed.

  Lemma flag_ignored (w : world T) (e : entity T) h a b :
    entity_step (with_flag b w) e h a = entity_step w e h a.
  Proof.
    unfold entity_step.
    assert (D : decode_action (with_flag b w) e a = decode_action w e a) by (destruct a; reflexivity).
    rewrite D. destruct (decode_action w e a) as [c|]; [|reflexivity].
    destruct (out_of_bounds _ _ _); [|reflexivity]. destruct (np_clip _ _ _) as [c'|]; [|reflexivity].
    unfold dyn_step, dyn__step. cbn [with_flag w_solve_ivp w_odeint].
    destruct (String.eqb (d_method (e_dyn e)) "RK45"); [|reflexivity].
    destruct (w_solve_ivp w _ _ _ _) as [sol|]; [|reflexivity]. reflexivity.
  Qed.

  (** ** Library entities reject wrong lengths *)
  Lemma rows_of {A} (M : list (list A)) n :
    forallb (fun r => Nat.eqb (length r) n) M = true -> forall r, In r M -> length r = n.
  Proof. intros H r Hr. rewrite forallb_forall in H. apply Nat.eqb_eq, H, Hr. Qed.

  Lemma cwh_rejects (m n : T) samples method d :
    cwh_dyn m n samples method = Ok d ->
    forall t s q, length q <> 3 -> exists x, d_raw d t s (A1 q) = Err x.
  Proof.
    unfold cwh_dyn, generate_cwh_matrices. simpl. unfold pydiv.
    destruct (neqb m n0); [discriminate|]. intros H. injection H as <-. cbn [d_raw].
    intros t s q Hq. unfold linear_raw. apply (affine_rejects _ _ 3); [|exact Hq].
    intros s' M E. injection E as <-. split; [discriminate|]. apply rows_of. reflexivity.
  Qed.

  Lemma rot2d_rejects (w : world T) (m i acc vel n : T) samples method uj d :
    rot2d_dyn w m i acc vel n samples method uj = Ok d ->
    forall t s q, length q <> 3 -> exists x, d_raw d t s (A1 q) = Err x.
  Proof.
    unfold rot2d_dyn. destruct (uj && negb (w_jax w)); [discriminate|].
    unfold generate_cwh_matrices. simpl. unfold pydiv.
    destruct (neqb m n0); [discriminate|]. intros H. injection H as <-. cbn [d_raw].
    intros t s q Hq. apply (affine_rejects _ _ 3); [|exact Hq].
    intros s' M E. unfold rot2d_g in E. destruct (aidx s' 2); [|discriminate]. cbn [bind] in E.
    unfold pydiv in E. destruct (neqb i n0); [discriminate|]. cbn [bind] in E.
    injection E as <-. split; [discriminate|]. apply rows_of. reflexivity.
  Qed.

  Lemma sixdof_rejects (m : T) I vel n body samples method d :
    sixdof_dyn m I vel n body samples method = Ok d ->
    forall t s q, length q <> 6 -> exists x, d_raw d t s (A1 q) = Err x.
  Proof.
    unfold sixdof_dyn. destruct vel as [[v0 v1] v2]. unfold generate_cwh_matrices. simpl. unfold pydiv.
    destruct (neqb m n0) eqn:Em; [discriminate|]. intros H. injection H as <-. cbn [d_raw].
    intros t s q Hq. apply (affine_rejects _ _ 6); [|exact Hq].
    intros s' M E. unfold sixdof_g in E.
    destruct (aidx s' 3), (aidx s' 4), (aidx s' 5), (aidx s' 6); try discriminate. cbn [bind] in E.
    destruct body.
    - unfold pydiv in E. rewrite Em in E. cbn [bind] in E.
      destruct (apply_quat _ _) as [[? ?] ?], (apply_quat _ _) as [[? ?] ?], (apply_quat _ _) as [[? ?] ?].
      cbn [bind] in E. injection E as <-. split; [discriminate|]. apply rows_of. reflexivity.
    - cbn [bind] in E. injection E as <-. split; [discriminate|]. apply rows_of. reflexivity.
  Qed.

  Lemma dubins2d_rejects (vmin vmax : T) samples method :
    forall t s q, length q <> 2 -> exists x, d_raw (dubins2d_dyn vmin vmax samples method) t s (A1 q) = Err x.
  Proof.
    intros t s q Hq. cbn [d_raw dubins2d_dyn]. apply (affine_rejects _ _ 2); [|exact Hq].
    intros s' M E. injection E as <-. split; [discriminate|]. apply rows_of. reflexivity.
  Qed.

  Lemma dubins3d_rejects (g vmin vmax gmin gmax rmin rmax : T) samples method :
    forall t s q, length q <> 3 ->
    exists x, d_raw (dubins3d_dyn g vmin vmax gmin gmax rmin rmax samples method) t s (A1 q) = Err x.
  Proof.
    intros t s q Hq. cbn [d_raw dubins3d_dyn]. apply (affine_rejects _ _ 3); [|exact Hq].
    intros s' M E. injection E as <-. split; [discriminate|]. apply rows_of. reflexivity.
  Qed.

  Lemma library_rejects t s (q : list T) :
    (forall m n samples method d, cwh_dyn m n samples method = Ok d ->
       length q <> 3 -> exists x, d_raw d t s (A1 q) = Err x) /\
    (forall w m i acc vel n samples method uj d, rot2d_dyn w m i acc vel n samples method uj = Ok d ->
       length q <> 3 -> exists x, d_raw d t s (A1 q) = Err x) /\
    (forall m I vel n body samples method d, sixdof_dyn m I vel n body samples method = Ok d ->
       length q <> 6 -> exists x, d_raw d t s (A1 q) = Err x) /\
    (forall vmin vmax samples method,
       length q <> 2 -> exists x, d_raw (dubins2d_dyn vmin vmax samples method) t s (A1 q) = Err x) /\
    (forall g vmin vmax gmin gmax rmin rmax samples method,
       length q <> 3 ->
       exists x, d_raw (dubins3d_dyn g vmin vmax gmin gmax rmin rmax samples method) t s (A1 q) = Err x).
  Proof.
    repeat split; intros.
    - eapply cwh_rejects; eassumption.
    - eapply rot2d_rejects; eassumption.
    - eapply sixdof_rejects; eassumption.
    - apply dubins2d_rejects; assumption.
    - apply dubins3d_rejects; assumption.
  Qed.

  Lemma euler_world_honest : honest_solver (euler_world : world T).
  Proof.
    split.
    - intros f h s te x H. simpl. unfold euler_solver. rewrite H. reflexivity.
    - intros f s ts x H. simpl. unfold euler_solver. rewrite H. reflexivity.
  Qed.
End G.

Lemma cwh_cmap_ok : cmap_ok cwh_control_map 3.
Proof.
  split.
  - intros k i. unfold cwh_control_map. simpl.
    destruct (String.eqb k "thrust_x"); [intros H; injection H as <-; lia|].
    destruct (String.eqb k "thrust_y"); [intros H; injection H as <-; lia|].
    destruct (String.eqb k "thrust_z"); [intros H; injection H as <-; lia|discriminate].
  - intros k k' i. unfold cwh_control_map. simpl.
    destruct (String.eqb_spec k "thrust_x"), (String.eqb_spec k "thrust_y"), (String.eqb_spec k "thrust_z"),
     (String.eqb_spec k' "thrust_x"), (String.eqb_spec k' "thrust_y"), (String.eqb_spec k' "thrust_z");
     congruence.
Qed.


(** ** Exact arithmetic *)
Section X.
  Variable r32 : R -> xr.
  Local Hint Extern 0 (Num xr) => exact (XR r32) : typeclass_instances.

  Lemma wrap_nan_center (w : world xr) (e : entity xr) h a c i y :
    o_res (entity_step w e h a) = Ok tt ->
    d_wrap (e_dyn e) = Some c -> bnth c i = Some NaN ->
    bnth (e_state (o_entity (entity_step w e h a))) i = Some y ->
    bnth (e_state (o_entity (entity_step w (set_wrap e None) h a))) i = Some y.
  Proof.
    intros H W C Y. destruct (wrap_element r32 w e h a c i NaN y H W C Y) as (x & X & D).
    rewrite X. f_equal. symmetry. exact D.
  Qed.

  Lemma same_angle_c rx ry cc : same_angle (rx + cc) ry -> (same_angle rx ry <-> same_angle cc 0).
  Proof.
    intros [k Hk]. split; intros [j Hj].
    - exists (k - j)%Z. rewrite minus_IZR. lra.
    - exists (k - j)%Z. rewrite minus_IZR. lra.
  Qed.

  Lemma wrap_center (w : world xr) (e : entity xr) h a c i cc y :
    o_res (entity_step w e h a) = Ok tt ->
    d_wrap (e_dyn e) = Some c -> bnth c i = Some (Fin cc) ->
    bnth (e_state (o_entity (entity_step w e h a))) i = Some y ->
    exists x, bnth (e_state (o_entity (entity_step w (set_wrap e None) h a))) i = Some x /\
      (forall rx, x = Fin rx ->
         exists ry, y = Fin ry /\ (cc - PI <= ry < cc + PI)%R /\ same_angle (rx + cc)%R ry /\
           (same_angle rx ry <-> same_angle cc 0)).
  Proof.
    intros H W C Y. destruct (wrap_element r32 w e h a c i (Fin cc) y H W C Y) as (x & X & D).
    exists x. split; [exact X|]. intros rx ->. cbn [xisnan] in D. rewrite wrap1_Fin in D.
    exists (wrapR cc rx). split; [exact D|]. split; [apply wrapR_range|].
    split; [apply wrapR_turns|]. apply same_angle_c, wrapR_turns.
  Qed.
End X.

Lemma sample_times_facts h n l : sample_times h n l ->
  (forall i j a b, (0 < h)%R -> i < j -> nth_error l i = Some (Fin a) -> nth_error l j = Some (Fin b) ->
     (0 < a < b)%R) /\
  (0 < n -> nth_error l (n - 1) = Some (Fin h)).
Proof.
  intros S. split.
  - intros i j a b Hh Hij Ha Hb. exact (sample_times_increasing h n l i j a b Hh S Hij Ha Hb).
  - intros Hn. exact (sample_times_last h n l Hn S).
Qed.

(** ** Concrete runs over exact reals *)
Local Hint Extern 0 (Num xr) => exact (XR Fin) : typeclass_instances.

Lemma xmod_wrap_fold (x : R) : xadd (xsub (xmod (xadd (Fin x) (Fin PI)) (Fin (2 * PI))) (Fin PI)) (Fin 0) = wrap1 (Fin 0) (Fin x).
Proof. unfold wrap1. rewrite nZ_Fin. reflexivity. Qed.

Lemma wrap_center_witness :
  exists (e : entity xr) (h : xr) (a : action xr) rx ry,
    let w := euler_world in
    o_res (entity_step w e h a) = Ok tt /\
    e_state (o_entity (entity_step w (set_wrap e None) h a)) = A1 [Fin rx] /\
    e_state (o_entity (entity_step w e h a)) = A1 [Fin ry] /\
    ~ same_angle rx ry.
Proof.
  exists (angleX "Euler" (Fin 1) NInf PInf 0), (Fin 1), (AArr (A1 [Fin 0])).
  set (e := angleX "Euler" (Fin 1) NInf PInf 0). set (a := AArr (A1 [Fin 0])). set (h := Fin 1).
  assert (R : o_res (entity_step euler_world e h a) = Ok tt).
  { unfold entity_step; xstep; reflexivity. }
  assert (S : exists r, e_state (o_entity (entity_step euler_world (set_wrap e None) h a)) = A1 [Fin r]).
  { unfold entity_step; xstep. eexists. reflexivity. }
  assert (S' : exists y, e_state (o_entity (entity_step euler_world e h a)) = A1 [y]).
  { unfold entity_step; xstep. eexists. reflexivity. }
  destruct S as [rx S], S' as [y S'].
  destruct (wrap_center Fin euler_world e h a (A1 [Fin 1]) 0 1 y R eq_refl eq_refl ltac:(rewrite S'; reflexivity))
    as (x & X & Q). rewrite S in X. injection X as <-.
  destruct (Q rx eq_refl) as (ry & -> & _ & _ & NS).
  exists rx, ry. cbv zeta. split; [exact R|]. split; [exact S|]. split; [exact S'|].
  intros SA. apply NS in SA. destruct SA as [k Hk]. pose proof PI2_3_2.
  destruct (Z_lt_le_dec k 1) as [K|K].
  - assert (IZR k <= 0)%R by (apply (IZR_le k 0); lia). assert (PI * IZR k <= 0)%R by nra. lra.
  - assert (1 <= IZR k)%R by (apply (IZR_le 1 k); lia). assert (PI <= PI * IZR k)%R by nra. lra.
Qed.

Lemma wrap4 : wrap1 (Fin 0) (Fin 4) = Fin (4 - 2 * PI).
Proof.
  rewrite wrap1_Fin. f_equal. pose proof PI2_3_2. pose proof PI_4.
  pose proof (wrapR_range 0 4).
  apply (turns_unique 4 4); try lra.
  - exists 0%Z. simpl. lra.
  - destruct (wrapR_turns 0 4) as [k Hk]. exists k. lra.
  - exists 1%Z. simpl. lra.
Qed.

Lemma wrap_limits_witness :
  exists (e : entity xr) (h : xr) (a : action xr) lo hi r,
    let w := euler_world in
    o_res (entity_step w e h a) = Ok tt /\
    bnth (d_min (e_dyn e)) 5 = Some (Fin lo) /\ bnth (d_max (e_dyn e)) 5 = Some (Fin hi) /\ (lo <= hi)%R /\
    bnth (e_state (o_entity (entity_step w e h a))) 5 = Some (Fin r) /\ (r < lo)%R.
Proof.
  exists (dub3X "Euler" 2 4 3), (Fin 1), (AArr (A1 [Fin 0; Fin 1; Fin 0])), 2%R, 4%R.
  unfold entity_step. xstep. pose proof PI2_3_2. pose proof PI_4.
  rewrite Req_bool_false by lra. rewrite (Zfloor_imp 1).
  - cbn. exists (4 + PI - 2 / 1 * PI * 1 - PI + 0 / 1)%R. repeat split; try lra.
  - replace (2 / 1 * PI)%R with (2 * PI)%R by lra. simpl IZR. split.
    + apply Rmult_le_reg_r with (2 * PI)%R; [lra|]. unfold Rdiv. rewrite Rmult_assoc, Rinv_l; lra.
    + apply Rmult_lt_reg_r with (2 * PI)%R; [lra|]. unfold Rdiv. rewrite Rmult_assoc, Rinv_l; lra.
Qed.

Lemma trajectory_last_row_witness :
  exists (e : entity xr) (h : xr) (a : action xr) rows ts q,
    let w := euler_world in
    d_method (e_dyn e) = "RK45"%string /\
    o_res (entity_step w e h a) = Ok tt /\
    e_traj (o_entity (entity_step w e h a)) = Some (rows ++ [q], ts) /\
    e_state (o_entity (entity_step w e h a)) <> A1 q.
Proof.
  exists (dub2X 0 "RK45" 0), (Fin 3), (AArr (A1 [Fin 0; Fin 96])), []. do 2 eexists.
  unfold entity_step. xstep. repeat split.
  intros H. injection H. intros. lra.
Qed.

Definition f64_pi_neg : f64 := Bopp f64_pi.
