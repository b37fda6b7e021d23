(** Hashing and integration settings. *)
From Coq Require Import String List Bool Arith ZArith Reals Lia.
From Flocq Require Import IEEE754.BinarySingleNaN.
From Verif Require Import PyBase Num Arr BaseModel BaseLemmas Cwh Rot2d Utils SixDof Sun Integ Dubins Classes Hash SpecSettings Float64 XTac Witness.
Import List ListNotations.
Local Open Scope string_scope.
Local Hint Extern 0 (Num f64) => exact (F64 lm0) : typeclass_instances.

Lemma mem_app n l m : mem n (l ++ m) = (mem n l || mem n m)%bool.
Proof. unfold mem. apply existsb_app. Qed.
(** Without additions by the user. *)
Lemma hash_lib c : ~ In "__hash__" (added c) -> ~ In "__eq__" (added c) -> compares_by_value c -> find_hash (mro c) = false.
Proof.
  unfold compares_by_value. induction c as [ | | | | | | | | | | | | |b IH defs]; cbn [added]; intros Hh He (H1 & H2); try reflexivity; try (cbn in *; congruence).
  cbn [mro find_hash]. unfold own_hash. cbn [own_concrete].
  assert (M1 : mem "__hash__" defs = false).
  { apply not_true_iff_false. intros M. apply Hh. apply in_or_app. left. unfold mem in M. apply existsb_exists in M.
    destruct M as (x & Ix & Ex). apply String.eqb_eq in Ex. subst x. exact Ix. }
  assert (M2 : mem "__eq__" defs = false).
  { apply not_true_iff_false. intros M. apply He. apply in_or_app. left. unfold mem in M. apply existsb_exists in M.
    destruct M as (x & Ix & Ex). apply String.eqb_eq in Ex. subst x. exact Ix. }
  rewrite M1, M2. apply IH.
  - intros X. apply Hh, in_or_app. right. exact X.
  - intros X. apply He, in_or_app. right. exact X.
  - exact (conj H1 H2).
Qed.
Lemma value_classes_unhashable T (o : obj T) :
  ~ In "__hash__" (added (o_cls o)) -> ~ In "__eq__" (added (o_cls o)) -> compares_by_value (o_cls o) -> py_hash o = Err TypeError.
Proof. intros A B C. unfold py_hash. rewrite (hash_lib _ A B C). reflexivity. Qed.
Lemma identity_classes_hash T (o : obj T) :
  ~ In "__hash__" (added (o_cls o)) -> ~ In "__eq__" (added (o_cls o)) -> ~ compares_by_value (o_cls o) -> py_hash o = Ok (o_id o).
Proof.
  intros A B C. unfold py_hash. replace (find_hash (mro (o_cls o))) with true; [reflexivity|]. symmetry.
  revert A B C. generalize (o_cls o). unfold compares_by_value.
  induction c as [ | | | | | | | | | | | | |b IH defs]; cbn [added]; intros Hh He H1; try reflexivity; try (exfalso; apply H1; cbn; split; discriminate).
  cbn [mro find_hash]. unfold own_hash. cbn [own_concrete].
  assert (M1 : mem "__hash__" defs = false).
  { apply not_true_iff_false. intros M. apply Hh. apply in_or_app. left. unfold mem in M. apply existsb_exists in M.
    destruct M as (x & Ix & Ex). apply String.eqb_eq in Ex. subst x. exact Ix. }
  assert (M2 : mem "__eq__" defs = false).
  { apply not_true_iff_false. intros M. apply He. apply in_or_app. left. unfold mem in M. apply existsb_exists in M.
    destruct M as (x & Ix & Ex). apply String.eqb_eq in Ex. subst x. exact Ix. }
  rewrite M1, M2. apply IH.
  - intros X. apply Hh, in_or_app. right. exact X.
  - intros X. apply He, in_or_app. right. exact X.
  - exact H1.
Qed.

Section Settings.
  Context {T : Type} {N : Num T}.
  Lemma unusable_never (w : world T) e h a : ~ documented_settings (d_method (e_dyn e)) (d_samples (e_dyn e)) (d_use_jax (e_dyn e)) ->
    o_res (entity_step w e h a) <> Ok tt /\ o_entity (entity_step w e h a) = e.
  Proof.
    intros Hn. unfold documented_settings in Hn. unfold entity_step.
    destruct (decode_action w e a) as [c|x]; [|split; [discriminate|reflexivity]].
    destruct (out_of_bounds c (e_cmin e) (e_cmax e)) as [wn|x]; [|split; [discriminate|reflexivity]].
    destruct (np_clip c (e_cmin e) (e_cmax e)) as [c'|x]; [|split; [discriminate|reflexivity]].
    assert (X : exists ex, dyn_step w (e_dyn e) (e_traj e) h (e_state e) c' = (e_traj e, Err ex)).
    { unfold dyn_step, dyn__step.
      destruct (String.eqb (d_method (e_dyn e)) "RK45") eqn:M1.
      { apply String.eqb_eq in M1. exfalso. apply Hn. left. exact M1. }
      destruct (String.eqb (d_method (e_dyn e)) "RK45_JAX") eqn:M2.
      { apply String.eqb_eq in M2. destruct (d_use_jax (e_dyn e)) eqn:J; cbn [negb bind]; [|eauto].
        destruct (d_samples (e_dyn e) <=? 0)%Z eqn:S; cbn [py_assert bind]; [|eauto].
        exfalso. apply Hn. right. left. apply Z.leb_le in S. auto. }
      destruct (String.eqb (d_method (e_dyn e)) "Euler") eqn:M3; cbn [bind]; [|eauto].
      apply String.eqb_eq in M3. destruct (d_samples (e_dyn e) <=? 0)%Z eqn:S; cbn [py_assert bind]; [|eauto].
      exfalso. apply Hn. right. right. apply Z.leb_le in S. auto. }
    destruct X as (ex & ->). cbn. split; [discriminate|]. destruct e; reflexivity.
  Qed.
  Lemma unusable_run (w : world T) e acts : acts <> [] ->
    ~ documented_settings (d_method (e_dyn e)) (d_samples (e_dyn e)) (d_use_jax (e_dyn e)) -> exists x, run w e acts = Err x.
  Proof.
    destruct acts as [|[h a] acts]; [congruence|]. intros _ Hn. cbn [run].
    destruct (unusable_never w e h a Hn) as (R & _). destruct (o_res (entity_step w e h a)) as [[]|x]; [congruence|].
    exists x. reflexivity.
  Qed.

  (** No use_jax in these constructors. *)
  Lemma linear_no_jax A B k me (d : dyn T) : linear_dyn A B k me = Ok d -> d_use_jax d = false /\ d_method d = me /\ d_samples d = k.
  Proof.
    unfold linear_dyn. destruct (py_assert (is_rect A (length A))); cbn [bind]; [|discriminate].
    destruct (py_assert (Nat.eqb (length A) (length B))); cbn [bind]; [|discriminate]. intros E. injection E as <-. auto.
  Qed.
  Lemma no_jax_never (w : world T) e h a : d_use_jax (e_dyn e) = false -> d_method (e_dyn e) = "RK45_JAX" -> o_res (entity_step w e h a) <> Ok tt.
  Proof.
    intros J M. apply unusable_never. rewrite J, M. unfold documented_settings. intros [X|[(_ & X & _)|(X & _)]]; discriminate.
  Qed.
  Lemma cwh_jax m n k x y z vx vy vz e : cwh_spacecraft m n k "RK45_JAX" x y z vx vy vz = Ok e ->
    forall (w : world T) h a, o_res (entity_step w e h a) <> Ok tt.
  Proof.
    unfold cwh_spacecraft, cwh_dyn. destruct (generate_cwh_matrices m n "3d") as [[A B]|]; cbn [bind]; [|discriminate].
    destruct (linear_dyn A B k "RK45_JAX") as [d|] eqn:Ed; cbn [bind]; [|discriminate]. intros E w h a. injection E as <-.
    destruct (linear_no_jax _ _ _ _ _ Ed) as (J & M & _). apply no_jax_never; assumption.
  Qed.
  Lemma sixdof_jax m I al vl iw aw vw tl body n k x y z q1 q2 q3 q4 vx vy vz wx wy wz e :
    sixdof_spacecraft m I al vl iw aw vw tl body n k "RK45_JAX" x y z q1 q2 q3 q4 vx vy vz wx wy wz = Ok e ->
    forall (w : world T) h a, o_res (entity_step w e h a) <> Ok tt.
  Proof.
    unfold sixdof_spacecraft.
    destruct (number_list_to_np al [3%nat]) as [al'|]; cbn [bind]; [|discriminate].
    destruct (number_list_to_np vl [3%nat]) as [vl'|]; cbn [bind]; [|discriminate].
    destruct (limit3 al') as [[[? ?] ?]|]; cbn [bind]; [|discriminate].
    destruct (limit3 vl') as [[[? ?] ?]|]; cbn [bind]; [|discriminate]. cbv zeta.
    match goal with |- context [sixdof_dyn m I ?v n body k ?me] => destruct (sixdof_dyn m I v n body k me) as [d|] eqn:Ed end; cbn [bind]; [|discriminate].
    intros E w h a. injection E as <-. revert Ed. unfold sixdof_dyn.
    destruct (generate_cwh_matrices m n "3d") as [[A B]|]; cbn [bind]; [|discriminate].
    destruct (py_assert _); cbn [bind]; [|discriminate]. destruct (py_assert _); cbn [bind]; [|discriminate].
    intros Ed. injection Ed as <-. apply no_jax_never; reflexivity.
  Qed.
  Lemma dubins_jax : (forall k v0 v1 h0 h1 a0 a1 x y hd v (w : world T) h a,
      o_res (entity_step w (dubins2d_aircraft k "RK45_JAX" v0 v1 h0 h1 a0 a1 x y hd v) h a) <> Ok tt) /\
    (forall k v0 v1 g0 g1 r0 r1 h0 h1 rr0 rr1 a0 a1 x y z hd g r v (w : world T) h a,
      o_res (entity_step w (dubins3d_aircraft k "RK45_JAX" v0 v1 g0 g1 r0 r1 h0 h1 rr0 rr1 a0 a1 x y z hd g r v) h a) <> Ok tt).
  Proof. split; intros; apply no_jax_never; reflexivity. Qed.
  Lemma integ_jax mo m c k d : integ_dyn m c mo k "RK45_JAX" = Ok d ->
    forall (w : world T) cd c0 c1 cm s h a, o_res (entity_step w (mk_entity d cd c0 c1 cm s) h a) <> Ok tt.
  Proof.
    unfold integ_dyn. destruct (generate_dynamics_matrices m c mo) as [[A B]|]; cbn [bind]; [|discriminate].
    intros Ed w cd c0 c1 cm s h a. destruct (linear_no_jax _ _ _ _ _ Ed) as (J & M & _). apply no_jax_never; assumption.
  Qed.
End Settings.

Lemma jax_never : forall T (N : Num T),
  (forall m n k x y z vx vy vz e, cwh_spacecraft m n k "RK45_JAX" x y z vx vy vz = Ok e ->
     forall (w : world T) h a, o_res (entity_step w e h a) <> Ok tt) /\
  (forall m I al vl iw aw vw tl body n k x y z q1 q2 q3 q4 vx vy vz wx wy wz e,
     sixdof_spacecraft m I al vl iw aw vw tl body n k "RK45_JAX" x y z q1 q2 q3 q4 vx vy vz wx wy wz = Ok e ->
     forall (w : world T) h a, o_res (entity_step w e h a) <> Ok tt) /\
  (forall k v0 v1 h0 h1 a0 a1 x y hd v (w : world T) h a,
     o_res (entity_step w (dubins2d_aircraft k "RK45_JAX" v0 v1 h0 h1 a0 a1 x y hd v) h a) <> Ok tt) /\
  (forall k v0 v1 g0 g1 r0 r1 h0 h1 rr0 rr1 a0 a1 x y z hd g r v (w : world T) h a,
     o_res (entity_step w (dubins3d_aircraft k "RK45_JAX" v0 v1 g0 g1 r0 r1 h0 h1 rr0 rr1 a0 a1 x y z hd g r v) h a) <> Ok tt) /\
  (forall mo m c k d, integ_dyn m c mo k "RK45_JAX" = Ok d ->
     forall (w : world T) cd c0 c1 cm s h a, o_res (entity_step w (mk_entity d cd c0 c1 cm s) h a) <> Ok tt).
Proof.
  intros T N. split; [exact cwh_jax|]. split; [exact sixdof_jax|]. split; [exact (proj1 dubins_jax)|].
  split; [exact (proj2 dubins_jax)|]. exact integ_jax.
Qed.

Lemma cwh_settings (m n x y z vx vy vz : f64) k me e :
  cwh_spacecraft (N := F64 lm0) m n k me x y z vx vy vz = Ok e ->
  d_method (e_dyn e) = me /\ d_samples (e_dyn e) = k /\ d_use_jax (e_dyn e) = false.
Proof.
  unfold cwh_spacecraft, cwh_dyn. destruct (generate_cwh_matrices m n "3d") as [[A B]|]; cbn [bind]; [|discriminate].
  destruct (linear_dyn A B k me) as [d|] eqn:Ed; cbn [bind]; [|discriminate]. intros E. injection E as <-.
  destruct (linear_no_jax _ _ _ _ _ Ed) as (J & M & S). auto.
Qed.
Lemma settings_refuted :
  exists (e1 e2 e3 : entity f64),
    let z := fl 0 1 in
    cwh_spacecraft (N := F64 lm0) M_DEFAULT N_DEFAULT 0 "RK4" z z z z z z = Ok e1 /\
    cwh_spacecraft (N := F64 lm0) M_DEFAULT N_DEFAULT 5 "Euler" z z z z z z = Ok e2 /\
    cwh_spacecraft (N := F64 lm0) M_DEFAULT N_DEFAULT 0 "RK45_JAX" z z z z z z = Ok e3 /\
    forall w h a, o_res (entity_step (N := F64 lm0) w e1 h a) <> Ok tt /\
      o_res (entity_step (N := F64 lm0) w e2 h a) <> Ok tt /\ o_res (entity_step (N := F64 lm0) w e3 h a) <> Ok tt.
Proof.
  set (mk k me := cwh_spacecraft (N := F64 lm0) M_DEFAULT N_DEFAULT k me (fl 0 1) (fl 0 1) (fl 0 1) (fl 0 1) (fl 0 1) (fl 0 1)).
  assert (G : forall k me, is_ok (mk k me) = true).
  { intros k me. unfold mk. vm_compute. reflexivity. }
  assert (Get : forall k me, exists e, mk k me = Ok e).
  { intros k me. specialize (G k me). destruct (mk k me) as [e|]; [eauto|discriminate]. }
  destruct (Get 0%Z "RK4") as (e1 & E1). destruct (Get 5%Z "Euler") as (e2 & E2). destruct (Get 0%Z "RK45_JAX") as (e3 & E3).
  exists e1, e2, e3. cbv zeta. split; [exact E1|]. split; [exact E2|]. split; [exact E3|].
  intros w h a. destruct (cwh_settings _ _ _ _ _ _ _ _ _ _ _ E1) as (M1 & S1 & J1).
  destruct (cwh_settings _ _ _ _ _ _ _ _ _ _ _ E2) as (M2 & S2 & J2). destruct (cwh_settings _ _ _ _ _ _ _ _ _ _ _ E3) as (M3 & S3 & J3).
  split; [|split]; apply unusable_never.
  - rewrite M1, S1, J1. intros [X|[(X & _)|(X & _)]]; discriminate.
  - rewrite M2, S2, J2. intros [X|[(X & _)|(_ & X)]]; [discriminate|discriminate|lia].
  - rewrite M3, S3, J3. intros [X|[(_ & X & _)|(X & _)]]; discriminate.
Qed.
