(** Lemmas about classes, equality and relative position. *)
From Coq Require Import String List Bool Arith ZArith Lia Reals Lra.
From Flocq Require Import Core.Core IEEE754.BinarySingleNaN.
From Verif Require Import PyBase Num Arr BaseModel Spec SpecBase XReal Float64 NumOrdLemmas ArrLemmas
  XTac Cwh Utils Rot2d SixDof Sun Integ Dubins Classes Units.
Import ListNotations.
Local Open Scope R_scope.

Lemma cls_eqb_refl c : cls_eqb c c = true.
Proof. induction c; cbn; auto. rewrite IHc. destruct (list_eq_dec string_dec defs defs); auto. Qed.
Lemma cls_eqb_eq a : forall b, cls_eqb a b = true -> a = b.
Proof.
  induction a; intros b H; destruct b; try discriminate; auto. cbn in H. apply andb_prop in H as [H1 H2].
  rewrite (IHa _ H1). destruct (list_eq_dec string_dec defs defs0); congruence.
Qed.
Lemma isinstance_in c d : isinstance c d = true <-> In d (mro c).
Proof.
  unfold isinstance. rewrite existsb_exists. split.
  - intros (x & I & E). apply cls_eqb_eq in E. subst; auto.
  - intros I. exists d. split; auto. apply cls_eqb_refl.
Qed.
Lemma lib_in_mro c : In (lib c) (mro c).
Proof. induction c; cbn; auto. Qed.
Lemma isinstance_lib c : isinstance c (lib c) = true.
Proof. apply isinstance_in, lib_in_mro. Qed.

(** The classes without subclasses inside the library. *)
Definition leaf (c : cls) : bool :=
  match c with
  | CWHSpacecraftC | CWHRotation2dSpacecraftC | SixDOFSpacecraftC | SunEntityC
  | Integrator1dC | Integrator2dC | Integrator3dC | Dubins2dAircraftC | Dubins3dAircraftC => true
  | _ => false
  end.
Lemma mro_leaf c d : leaf d = true -> In d (mro c) -> lib c = d.
Proof.
  intros L. induction c; cbn; intros H; repeat destruct H as [<-|H]; auto; try discriminate; try contradiction.
Qed.
Lemma isinstance_leaf c d : leaf d = true -> isinstance c d = cls_eqb (lib c) d.
Proof.
  intros L. destruct (isinstance c d) eqn:E; symmetry.
  - apply isinstance_in in E. rewrite (mro_leaf _ _ L E). apply cls_eqb_refl.
  - destruct (cls_eqb (lib c) d) eqn:F; auto. apply cls_eqb_eq in F. subst.
    rewrite isinstance_lib in E. discriminate.
Qed.
Lemma lib_mro c d : In d (mro c) -> leaf (lib d) = true -> lib c = lib d.
Proof.
  induction c; cbn; intros H L; repeat destruct H as [<-|H]; cbn in L |- *; auto; try discriminate; try contradiction.
Qed.
Lemma isinstance_lib_eq c d : isinstance c d = true -> leaf (lib d) = true -> lib c = lib d.
Proof. intros H. apply lib_mro, isinstance_in, H. Qed.

Section Gen.
  Context {T : Type} {N : Num T}.
  Variable ae : T * T * T * T -> list T.

  (** Objects of the same library class: [==] runs that class's method, on one side or the other. *)
  Lemma py_eq_cases (a b : obj T) : py_eq ae a b = eq_method ae a b \/ py_eq ae a b = eq_method ae b a.
  Proof. unfold py_eq. destruct (_ && _); auto. Qed.

  Lemma different_classes (a b : obj T) : leaf (lib (o_cls a)) = true -> leaf (lib (o_cls b)) = true ->
    lib (o_cls a) <> lib (o_cls b) ->
    ~ In (lib (o_cls a)) [Integrator1dC; Integrator2dC; Integrator3dC] \/
    ~ In (lib (o_cls b)) [Integrator1dC; Integrator2dC; Integrator3dC] ->
    py_eq ae a b = Ok false.
  Proof.
    intros La Lb Ne Hi. unfold py_eq.
    assert (isinstance (o_cls b) (o_cls a) = false) as ->.
    { destruct (isinstance _ _) eqn:E; auto. apply isinstance_lib_eq in E; auto. congruence. }
    rewrite andb_false_r. unfold eq_method.
    destruct (lib (o_cls a)) eqn:Ea; try discriminate;
      rewrite isinstance_leaf by reflexivity;
      destruct (lib (o_cls b)) eqn:Eb; try discriminate; try reflexivity; try congruence;
      exfalso; destruct Hi as [Hi|Hi]; apply Hi; cbn; auto.
  Qed.

  Lemma sun_eq (a b : obj T) : lib (o_cls a) = SunEntityC -> lib (o_cls b) = SunEntityC -> py_eq ae a b = Ok true.
  Proof.
    intros A B. destruct (py_eq_cases a b) as [-> | ->]; unfold eq_method; rewrite ?A, ?B;
      rewrite isinstance_leaf by reflexivity; rewrite ?A, ?B; reflexivity.
  Qed.

  (** ** Integrators *)
  Lemma integ23_self (o : obj T) : lib (o_cls o) = Integrator2dC \/ lib (o_cls o) = Integrator3dC ->
    py_eq ae o o = Ok false.
  Proof.
    intros H. unfold py_eq. rewrite cls_eqb_refl. cbn [negb andb]. unfold eq_method.
    destruct H as [H|H]; rewrite H; rewrite isinstance_leaf by reflexivity; rewrite H; reflexivity.
  Qed.

  (** ** Abstract classes *)
  Lemma integ_abstract w id c p (kw : kwargs T) : In c [Integrator1dC; Integrator2dC; Integrator3dC] ->
    make w id c p kw = Err TypeError.
  Proof.
    intros [<-|[<-|[<-|[]]]]; unfold make; destruct (cls_eqb _ _); reflexivity.
  Qed.
  Lemma py_new_user c : In c [Integrator1dC; Integrator2dC; Integrator3dC] ->
    py_new (UserC c ["orientation"%string]) = Ok tt.
  Proof. intros [<-|[<-|[<-|[]]]]; reflexivity. Qed.
End Gen.

Section X.
  Variable r32 : R -> xr.
  Local Hint Extern 0 (Num xr) => exact (XR r32) : typeclass_instances.

  Lemma xeqb_fin (x y : R) : xeqb (Fin x) (Fin y) = true <-> x = y.
  Proof. cbn. split; [apply Req_bool_true_iff || (intros H; destruct (Req_bool_spec x y); congruence)|intros ->; apply Req_bool_true; auto]. Qed.

  Lemma forallb_zip_fin : forall l m : list R, length l = length m ->
    (forallb (fun b => b) (zipw xeqb (map Fin l) (map Fin m)) = true <-> l = m).
  Proof.
    induction l as [|a l IH]; intros [|b m] L; try discriminate; [cbn; tauto|].
    cbn [map zipw forallb]. rewrite andb_true_iff, xeqb_fin, IH by (cbn in L; lia). split; [intros [-> ->]|]; auto. intros Q; injection Q; auto.
  Qed.

  (** [all_eq] of two vectors of finite numbers. *)
  Lemma all_eq_fin (l m : list R) : length l = length m -> exists b,
    all_eq (Ok (A1 (map Fin l))) (Ok (A1 (map Fin m))) = Ok b /\ (b = true <-> l = m).
  Proof.
    intros L. eexists. split.
    - unfold all_eq. cbn [bind bmap2]. rewrite !map_length, L, Nat.eqb_refl. cbn [bind]. reflexivity.
    - cbn [all_true]. apply forallb_zip_fin; auto.
  Qed.

  (** A conjunction of comparisons none of which raises. *)
  Fixpoint conj_all (l : list Prop) : Prop := match l with [] => True | p :: l' => p /\ conj_all l' end.
  Lemma and_then_all l ps :
    Forall2 (fun r (p : Prop) => exists b, r = Ok b /\ (b = true <-> p)) l ps ->
    exists r, and_then l = Ok r /\ (r = true <-> conj_all ps).
  Proof.
    induction 1 as [|r P l ps (b & Hb & HP) _ (r' & IH1 & IH2)]; cbn [conj_all and_then] in *.
    - exists true. split; auto. split; auto.
    - subst r. cbn [bind]. destruct b.
      + exists r'. split; auto. rewrite IH2. tauto.
      + exists false. split; auto. split; [discriminate|]. tauto.
  Qed.
  Lemma and_then_true (l : list (res bool)) : and_then l = Ok true -> forall r, In r l -> r = Ok true.
  Proof.
    induction l as [|r l IH]; intros H; [intros ? []|]. cbn [and_then] in H. destruct r as [b|]; [|discriminate].
    cbn [bind] in H. destruct b; [|discriminate]. intros r [<-|I]; auto.
  Qed.
End X.
