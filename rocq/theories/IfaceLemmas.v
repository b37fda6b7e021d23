(** Vectors against scalars (C123), class hierarchy (C124). *)
From Coq Require Import String List Bool Relations Reals Lra.
From Verif Require Import PyBase Num Arr BaseModel XReal Cwh Utils Rot2d SixDof Sun Integ Dubins Classes SpecClasses ClassLemmas EqLemmas SpecIface.
Import ListNotations.
Local Open Scope string_scope.

Ltac len_inv l H := repeat (destruct l as [|? l]; cbn [length] in H; try discriminate H; try (injection H as H)).
Ltac each := repeat (apply Forall2_cons || apply Forall2_nil).

Section G.
  Context {T : Type} {N : Num T}.
  Lemma positions (o : obj T) : In (lib (o_cls o)) [CWHSpacecraftC; CWHRotation2dSpacecraftC; SixDOFSpacecraftC; Integrator3dC; Dubins2dAircraftC; Dubins3dAircraftC] ->
    has_length (state_length (lib (o_cls o))) o -> made_of o (position o) ["x"; "y"; "z"].
  Proof.
    intros I (l & S & L). unfold made_of, position, getattr, accessors.
    repeat (destruct I as [I|I]; [rewrite <- I in L |- *; cbn [state_length] in L; len_inv l L;
      unfold cwh_position, rot2d_position, sixdof_position, integ3_position, d2_position, d3_position; rewrite S; eexists; split; [reflexivity|];
      each; cbn; rewrite ?S; reflexivity|]). destruct I.
  Qed.
  Lemma velocities (o : obj T) : In (lib (o_cls o)) [CWHSpacecraftC; CWHRotation2dSpacecraftC; SixDOFSpacecraftC; Integrator3dC] ->
    has_length (state_length (lib (o_cls o))) o -> made_of o (velocity o) ["x_dot"; "y_dot"; "z_dot"].
  Proof.
    intros I (l & S & L). unfold made_of, velocity, getattr, accessors.
    repeat (destruct I as [I|I]; [rewrite <- I in L |- *; cbn [state_length] in L; len_inv l L;
      unfold cwh_velocity, rot2d_velocity, sixdof_velocity, integ3_velocity; rewrite S; eexists; split; [reflexivity|];
      each; cbn; rewrite ?S; reflexivity|]). destruct I.
  Qed.
  Lemma spins (o : obj T) : has_length (state_length (lib (o_cls o))) o ->
    (lib (o_cls o) = CWHRotation2dSpacecraftC -> made_of o (rot2d_angular_velocity (o_ent o)) ["wx"; "wy"; "wz"] /\ made_of o (rot2d_quaternion (o_ent o)) ["q1"; "q2"; "q3"; "q4"]) /\
    (lib (o_cls o) = SixDOFSpacecraftC -> made_of o (sixdof_angular_velocity (o_ent o)) ["wx"; "wy"; "wz"]).
  Proof.
    intros (l & S & L). unfold made_of, getattr, accessors. split; intros I; rewrite I in L |- *; cbn [state_length] in L; len_inv l L.
    - unfold rot2d_angular_velocity. rewrite S. split.
      + eexists; split; [reflexivity|]. each; cbn; rewrite ?S; reflexivity.
      + unfold rot2d_quaternion at 1. rewrite S. eexists; split; [reflexivity|]. each; cbn; unfold rot2d_quaternion; rewrite S; reflexivity.
    - unfold sixdof_angular_velocity. rewrite S. eexists; split; [reflexivity|]. each; cbn; rewrite ?S; reflexivity.
  Qed.
  (** The integrators in one and two dimensions. *)
  Lemma flat_vectors (o : obj T) : has_length (state_length (lib (o_cls o))) o ->
    (lib (o_cls o) = Integrator2dC -> made_of o (position o) ["x"; "y"] /\ made_of o (velocity o) ["x_dot"; "y_dot"]) /\
    (lib (o_cls o) = Integrator1dC -> exists x v, position o = Ok (A0 x) /\ getattr o "x" = Ok x /\ velocity o = Ok (A0 v) /\ getattr o "x_dot" = Ok v).
  Proof.
    intros (l & S & L). unfold made_of, position, velocity, getattr, accessors. split; intros I; rewrite I in L |- *; cbn [state_length] in L; len_inv l L.
    - unfold integ2_position, integ2_velocity. rewrite S. split; (eexists; split; [reflexivity|]); each; cbn; rewrite ?S; reflexivity.
    - unfold integ1_position, integ1_velocity. cbn [bind]. rewrite S. cbn [aidx nth_error bind]. do 2 eexists. split; [reflexivity|]. split; [cbn; rewrite S; reflexivity|]. split; [reflexivity|]. cbn; rewrite S; reflexivity.
  Qed.
  (** Other names for the same number; numbers a planar class does not have. *)
  Lemma aliases (o : obj T) : has_length (state_length (lib (o_cls o))) o -> In (lib (o_cls o)) [Dubins2dAircraftC; Dubins3dAircraftC] ->
    (exists x, getattr o "yaw" = Ok x /\ getattr o "heading" = Ok x) /\ (exists x, getattr o "pitch" = Ok x /\ getattr o "gamma" = Ok x).
  Proof.
    intros (l & S & L) I. unfold getattr, accessors.
    repeat (destruct I as [I|I]; [rewrite <- I in L |- *; cbn [state_length] in L; len_inv l L; cbn; rewrite ?S; split; eexists; split; reflexivity|]). destruct I.
  Qed.
  Lemma zeros (o : obj T) n : In n (planar (lib (o_cls o))) -> getattr o n = Ok n0.
  Proof.
    unfold getattr, accessors. destruct (lib (o_cls o)); cbn [planar In]; intros H; repeat (destruct H as [<-|H]; [reflexivity|]); destruct H.
  Qed.
End G.

(** The attitude of a SixDOFSpacecraft: scipy normalises it. *)
Local Open Scope R_scope.
Lemma six_quaternion (o : obj xr) a b c d x y z vx vy vz wx wy wz :
  is_a SixDOFSpacecraftC [x; y; z; a; b; c; d; vx; vy; vz; wx; wy; wz] o -> ~ (a = 0 /\ b = 0 /\ c = 0 /\ d = 0) ->
  (made_of (N := XR Fin) o (sixdof_quaternion (N := XR Fin) (o_ent o)) ["q1"; "q2"; "q3"; "q4"]%string <-> a * a + b * b + c * c + d * d = 1).
Proof.
  intros [I S] Nz.
  assert (G : getattr (N := XR Fin) o "q1" = Ok (Fin a) /\ getattr (N := XR Fin) o "q2" = Ok (Fin b) /\
    getattr (N := XR Fin) o "q3" = Ok (Fin c) /\ getattr (N := XR Fin) o "q4" = Ok (Fin d)).
  { unfold getattr, accessors. rewrite I. cbn. rewrite S. repeat split. }
  destruct G as (G1 & G2 & G3 & G4).
  unfold made_of, sixdof_quaternion. rewrite S. cbn [aidx map nth_error bind]. rewrite (from_quat_ok Fin (fun _ => []) _ _ _ _ Nz).
  cbn [bind]. unfold qnorm.
  set (q := a * a + b * b + c * c + d * d). assert (Q0 : 0 < q).
  { unfold q. pose proof (Rle_0_sqr a) as A. pose proof (Rle_0_sqr b) as B. pose proof (Rle_0_sqr c) as C. pose proof (Rle_0_sqr d) as D. unfold Rsqr in *.
    destruct (Req_dec a 0) as [->|Ha]; [destruct (Req_dec b 0) as [->|Hb]; [destruct (Req_dec c 0) as [->|Hc]; [destruct (Req_dec d 0) as [->|Hd]; [tauto|]|]|]|];
    match goal with H : ?v <> 0 |- _ => pose proof (Rsqr_pos_lt v H) as P; unfold Rsqr in P end; lra. }
  split.
  - intros (l & E & F). injection E as <-. inversion F as [|? ? ? ? F1 F']; subst. inversion F' as [|? ? ? ? F2 F2']; subst. inversion F2' as [|? ? ? ? F3 F3']; subst. inversion F3' as [|? ? ? ? F4 _]; subst. rewrite G1 in F1. rewrite G2 in F2. rewrite G3 in F3. rewrite G4 in F4.
    injection F1 as F1. injection F2 as F2. injection F3 as F3. injection F4 as F4.
    fold q in F1, F2, F3, F4. pose proof (sqrt_lt_R0 q Q0) as R0. pose proof (sqrt_sqrt q ltac:(lra)) as R2. set (r := sqrt q) in *.
    assert (Z : forall v, v = v / r -> v * r = v) by (intros v Hv; rewrite Hv at 1; field; lra).
    apply Z in F1, F2, F3, F4. assert (Q2 : q * r = q) by (replace (q * r) with (a * (a * r) + b * (b * r) + c * (c * r) + d * (d * r)) by (unfold q; ring); rewrite F1, F2, F3, F4; reflexivity).
    assert (r = 1) by (apply (Rmult_eq_reg_l q); lra). rewrite <- R2. rewrite H. ring.
  - intros Q1. eexists. split; [reflexivity|]. fold q. rewrite Q1, sqrt_1. unfold Rdiv. rewrite Rinv_1, !Rmult_1_r. each; assumption.
Qed.

(** Subclasses. *)
Lemma mro_subclass c d : In d (mro c) <-> subclass c d.
Proof.
  split.
  - induction c; cbn [mro In]; intros H; repeat (destruct H as [<-|H]; [repeat (apply rt1n_refl || (eapply Relation_Operators.rt1n_trans; [constructor|]))|]); try contradiction.
    eapply Relation_Operators.rt1n_trans; [constructor|]. apply IHc, H.
  - induction 1 as [c|c b d D _ IH].
    + destruct c; cbn; auto.
    + destruct D; cbn [mro In] in IH |- *; tauto.
Qed.
Lemma subclass_iff c d : isinstance c d = true <-> subclass c d.
Proof. rewrite isinstance_in. apply mro_subclass. Qed.
Lemma mem_in n l : mem n l = true <-> In n l.
Proof.
  unfold mem. rewrite existsb_exists. split; [intros (x & I & E); apply String.eqb_eq in E; subst; exact I|].
  intros I. exists n. split; [exact I|apply String.eqb_refl].
Qed.

(** Lookup finds an abstract member only when nothing before it implements the name. *)
Lemma lookup_some n l b : In b l -> In n (own_abstract b) -> exists r, lookup n l = Some r.
Proof.
  induction l as [|c l IH]; intros I A; [destruct I|]. cbn [lookup]. destruct (mem n (own_concrete c)); [eauto|].
  destruct (mem n (own_abstract c)) eqn:M; [eauto|]. destruct I as [->|I]; [apply mem_in in A; congruence|auto].
Qed.
Lemma lookup_false n l : lookup n l = Some false -> exists b, In b l /\ In n (own_concrete b).
Proof.
  induction l as [|c l IH]; cbn [lookup]; [discriminate|]. destruct (mem n (own_concrete c)) eqn:M.
  - intros _. exists c. split; [left; reflexivity|apply mem_in, M].
  - destruct (mem n (own_abstract c)); [discriminate|]. intros H. destruct (IH H) as (b & I & C). exists b. split; [right|]; auto.
Qed.
Lemma new_iff c : py_new c = Ok tt <-> forall n, demands c n -> lookup n (mro c) = Some false.
Proof.
  unfold py_new, demands. split.
  - destruct (abstract_members c) as [|x l] eqn:E; [|discriminate]. intros _ n (b & Sb & A). apply mro_subclass in Sb.
    destruct (lookup_some _ _ _ Sb A) as [[|] Lk]; [|exact Lk]. exfalso.
    assert (I : In n (abstract_members c)).
    { unfold abstract_members. apply filter_In. split; [apply in_flat_map; eauto|]. rewrite Lk. reflexivity. }
    rewrite E in I. destruct I.
  - intros H. destruct (abstract_members c) as [|x l] eqn:E; [reflexivity|]. exfalso.
    assert (I : In x (abstract_members c)) by (rewrite E; left; reflexivity). unfold abstract_members in I. apply filter_In in I. destruct I as [I Lk].
    apply in_flat_map in I. destruct I as (b & Sb & A). rewrite (H x) in Lk; [discriminate|]. exists b. split; [apply mro_subclass, Sb|exact A].
Qed.
Lemma new_implements c n : py_new c = Ok tt -> demands c n -> implements c n.
Proof.
  intros H D. destruct (lookup_false _ _ (proj1 (new_iff c) H n D)) as (b & I & C). exists b. split; [apply mro_subclass, I|exact C].
Qed.
(** A user class can be created exactly when it supplies what its base leaves open. *)
Lemma demands_user b defs n : demands (UserC b defs) n <-> demands b n.
Proof.
  split; intros (d & S & A).
  - apply mro_subclass in S. cbn [mro In] in S. destruct S as [S|S]; [subst d; destruct A|]. exists d. split; [apply mro_subclass, S|exact A].
  - exists d. split; [|exact A]. eapply Relation_Operators.rt1n_trans; [constructor|exact S].
Qed.
(** No class of the library declares a member abstract that a base of it implements. *)
Lemma unshadowed c n : In n (flat_map own_abstract (mro c)) -> lookup n (mro c) = Some (negb (existsb (fun b => mem n (own_concrete b)) (mro c))).
Proof.
  induction c as [| | | | | | | | | | | | |b IH defs]; try (cbn [mro flat_map own_abstract app In]; intros H; repeat (destruct H as [<-|H]; [reflexivity|]); destruct H).
  cbn [mro flat_map own_abstract app lookup existsb own_concrete]. intros H. destruct (mem n defs); [reflexivity|]. cbn [mem existsb orb]. apply IH, H.
Qed.
Lemma implements_iff c n : implements c n <-> existsb (fun b => mem n (own_concrete b)) (mro c) = true.
Proof.
  unfold implements. rewrite existsb_exists. split; intros (b & I & C); exists b; split; try (apply mro_subclass, I); apply mem_in, C.
Qed.
Lemma demands_iff c n : demands c n <-> In n (flat_map own_abstract (mro c)).
Proof. unfold demands. rewrite in_flat_map. split; intros (b & I & A); exists b; split; try (apply mro_subclass, I); exact A. Qed.
Lemma new_complete c : py_new c = Ok tt <-> forall n, demands c n -> implements c n.
Proof.
  split; [intros H n; apply new_implements, H|]. intros H. apply new_iff. intros n D. pose proof (proj1 (demands_iff c n) D) as I. rewrite (unshadowed _ _ I).
  rewrite (proj1 (implements_iff c n) (H n D)). reflexivity.
Qed.
Lemma new_user b defs : py_new (UserC b defs) = Ok tt <-> forall n, demands b n -> implements b n \/ In n defs.
Proof.
  rewrite new_complete. split; intros H n D.
  - apply (proj2 (demands_user b defs n)) in D. destruct (H n D) as (d & S & C). apply mro_subclass in S. cbn [mro In] in S.
    destruct S as [S|S]; [subst d; right; exact C|]. left. exists d. split; [apply mro_subclass, S|exact C].
  - apply (proj1 (demands_user b defs n)) in D. destruct (H n D) as [(d & S & C)|I].
    + exists d. split; [eapply Relation_Operators.rt1n_trans; [constructor|exact S]|exact C].
    + exists (UserC b defs). split; [apply rt1n_refl|exact I].
Qed.

(** Names a class does not have. *)
Lemma lib_implements c n : implements (lib c) n -> implements c n.
Proof.
  induction c as [| | | | | | | | | | | | |b IH defs]; try (intros H; exact H). cbn [lib]. intros H. destruct (IH H) as (d & S & C).
  exists d. split; [eapply Relation_Operators.rt1n_trans; [constructor|exact S]|exact C].
Qed.
Lemma lib_not_user c b d : lib c <> UserC b d.
Proof. induction c as [| | | | | | | | | | | | |b' IH defs]; cbn [lib]; try discriminate. exact IH. Qed.
Lemma unknown {T} {N : Num T} (o : obj T) n : In n scalar_names -> ~ implements (o_cls o) n -> getattr o n = Err AttributeError.
Proof.
  intros I Ni. assert (Nl : ~ implements (lib (o_cls o)) n) by (intros H; apply Ni, lib_implements, H). unfold getattr, accessors. clear Ni.
  assert (L : forall b d, lib (o_cls o) <> UserC b d) by (intros b d; apply lib_not_user).
  destruct (lib (o_cls o)); try (exfalso; eapply L; reflexivity); cbn [dict_get];
    repeat match goal with |- context [String.eqb ?a ?b] => destruct (String.eqb_spec a b) as [Q|_]; [exfalso; apply Nl; subst; apply implements_iff; reflexivity|] end; reflexivity.
Qed.

(** Witnesses. *)
Definition shown (c : cls) (e : entity xr) (l : list R) : obj xr := {| o_id := 1; o_cls := c; o_ent := set_state e (A1 (map Fin l)) |}.
Lemma six_unnormalised e : let o := shown SixDOFSpacecraftC e [0; 0; 0; 0; 0; 0; 2; 0; 0; 0; 0; 0; 0] in
  ~ made_of (N := XR Fin) o (sixdof_quaternion (N := XR Fin) (o_ent o)) ["q1"; "q2"; "q3"; "q4"]%string.
Proof.
  intros o H. apply (six_quaternion o 0 0 0 2 0 0 0 0 0 0 0 0 0) in H; [lra|split; reflexivity|]. intros (_ & _ & _ & Q). lra.
Qed.
Lemma integ2_short e : let o := shown (UserC Integrator2dC ["orientation"%string]) e [5; 6; 7; 8] in
  position (N := XR Fin) o = Ok (A1 [Fin 5; Fin 6]) /\ ~ made_of (N := XR Fin) o (position (N := XR Fin) o) ["x"; "y"; "z"]%string.
Proof.
  intros o. assert (P : position (N := XR Fin) o = Ok (A1 [Fin 5; Fin 6])) by reflexivity. split; [exact P|].
  intros (l & E & F). rewrite P in E. injection E as <-. inversion F as [|? ? ? ? _ F']; subst. inversion F' as [|? ? ? ? _ F2]; subst. inversion F2.
Qed.
