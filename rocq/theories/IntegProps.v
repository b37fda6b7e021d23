(** Control maps and number_list_to_np. *)
From Coq Require Import String List Bool Arith ZArith Lia Reals Lra.
From Flocq Require Import Core.Core IEEE754.BinarySingleNaN.
From Verif Require Import PyBase Num Arr BaseModel Spec SpecBase XReal Float64 NumOrdLemmas ArrLemmas
  XTac Cwh Utils Rot2d SixDof Sun Integ Dubins Classes Units SpecWrap SpecClasses ClassLemmas ConfigLemmas.
Import ListNotations.
Local Open Scope R_scope.

Section G.
  Context {T : Type} {N : Num T}.

  Ltac names H :=
    cbn [dict_get] in H;
    repeat match type of H with
           | context [String.eqb ?n ?s] => destruct (String.eqb_spec n s); [subst; first [discriminate H | injection H as <- | idtac]|]
           end; try discriminate.
  Lemma cmaps_ok : addressed cwh_control_map 3 /\ addressed rot2d_control_map 3 /\ addressed sixdof_control_map 6 /\
    addressed dubins2d_control_map 2 /\ addressed dubins3d_control_map 3 /\ addressed integ1_control_map 1.
  Proof.
    repeat match goal with |- _ /\ _ => split end;
      (split; [split; [intros nm i H; unfold cwh_control_map, rot2d_control_map, sixdof_control_map, dubins2d_control_map, dubins3d_control_map, integ1_control_map in H; names H; lia
        | intros nm nm' i H H'; unfold cwh_control_map, rot2d_control_map, sixdof_control_map, dubins2d_control_map, dubins3d_control_map, integ1_control_map in H, H'; names H; names H'; reflexivity]|]);
      intros i Hi.
    - destruct i as [|[|[|]]]; [exists "thrust_x"%string|exists "thrust_y"%string|exists "thrust_z"%string|lia]; reflexivity.
    - destruct i as [|[|[|]]]; [exists "thrust_x"%string|exists "thrust_y"%string|exists "moment_z"%string|lia]; reflexivity.
    - destruct i as [|[|[|[|[|[|]]]]]]; [exists "thrust_x"%string|exists "thrust_y"%string|exists "thrust_z"%string
        |exists "moment_x"%string|exists "moment_y"%string|exists "moment_z"%string|lia]; reflexivity.
    - destruct i as [|[|]]; [exists "heading_rate"%string|exists "acceleration"%string|lia]; reflexivity.
    - destruct i as [|[|[|]]]; [exists "gamma_rate"%string|exists "roll_rate"%string|exists "acceleration"%string|lia]; reflexivity.
    - destruct i as [|]; [exists "thrust_x"%string|lia]; reflexivity.
  Qed.

  Lemma make_addressed w id c p (kw : kwargs T) o : make w id c p kw = Ok o ->
    ~ In (lib c) [SunEntityC; Integrator2dC; Integrator3dC] ->
    exists cmap k, e_cmap (o_ent o) = Some cmap /\ e_default (o_ent o) = A1 (repeat n0 k) /\ (0 < k)%nat /\ addressed cmap k.
  Proof.
    intros H Ni. apply make_inv in H as (L & _ & _ & _ & cfg & vals & _ & _ & B & _). rewrite L in Ni.
    destruct cmaps_ok as (M1 & M2 & M3 & M4 & M5 & M6).
    destruct p; cbn [pcls] in Ni; cbn [Units.body] in B; try (exfalso; apply Ni; cbn; tauto).
    all: repeat match type of B with match ?v with _ => _ end = _ => destruct v; try discriminate end.
    - unfold cwh_spacecraft in B. destruct (cwh_dyn _ _ _ _); cbn [bind] in B; [|discriminate]. injection B as <-. exists cwh_control_map, 3%nat. repeat split; auto; try lia; apply M1.
    - unfold rot2d_spacecraft in B.
      repeat match type of B with bind ?x _ = _ => destruct x; cbn [bind] in B; [|discriminate] end. injection B as <-. exists rot2d_control_map, 3%nat. repeat split; auto; try lia; apply M2.
    - unfold sixdof_spacecraft in B.
      do 2 (match type of B with bind ?x _ = _ => destruct x; cbn [bind] in B; [|discriminate] end).
      do 2 (match type of B with bind ?x _ = _ => destruct x as [[[? ?] ?]|]; cbn [bind] in B; [|discriminate] end).
      match type of B with bind ?x _ = _ => destruct x; cbn [bind] in B; [|discriminate] end.
      injection B as <-. exists sixdof_control_map, 6%nat. repeat split; auto; try lia; apply M3.
    - unfold integrator1d_body in B. destruct (integ_dyn _ _ _ _ _); cbn [bind] in B; [|discriminate]. injection B as <-. exists integ1_control_map, 1%nat. repeat split; auto; try lia; apply M6.
    - injection B as <-. exists dubins2d_control_map, 2%nat. repeat split; auto; try lia; apply M4.
    - injection B as <-. exists dubins3d_control_map, 3%nat. repeat split; auto; try lia; apply M5.
  Qed.

  (** The 2d and 3d integrators: every actuator name writes element 0. *)
  Lemma apply_items0 cmap (Hc : forall n i, dict_get n cmap = Some i -> i = 0%nat) :
    forall (items : list (string * T)) l c, apply_items cmap items (A1 l) = Ok c ->
    exists l', c = A1 l' /\ length l' = length l /\ forall i, (0 < i)%nat -> nth_error l' i = nth_error l i.
  Proof.
    induction items as [|[n v] items IH]; intros l c H; cbn [apply_items] in H; [injection H as <-; eauto|].
    destruct (dict_get n cmap) as [i|] eqn:E; [|discriminate]. apply Hc in E. subst i.
    destruct l as [|a l]; cbn in H; [discriminate|].
    destruct (IH _ _ H) as (l' & -> & L & Q). exists l'. split; auto. split; auto.
    intros i Hi. rewrite Q by auto. destruct i; [lia|]. reflexivity.
  Qed.
  Lemma integ_one_axis w id c p (kw : kwargs T) o (w' : world T) items ctrl : make w id c p kw = Ok o ->
    lib c = Integrator2dC \/ lib c = Integrator3dC ->
    decode_action w' (o_ent o) (ADict items) = Ok ctrl ->
    forall i x, (0 < i)%nat -> anth ctrl i = Some x -> x = n0.
  Proof.
    intros H Lc D i x Hi Bx. apply make_inv in H as (L & _ & _ & _ & cfg & vals & _ & _ & B & _).
    assert (Q : exists cmap k, (forall n i, dict_get n cmap = Some i -> i = 0%nat) /\ e_cmap (o_ent o) = Some cmap /\ e_default (o_ent o) = A1 (repeat n0 k)).
    { destruct Lc as [Lc|Lc]; rewrite Lc in L; destruct p; try discriminate; cbn [Units.body] in B;
        repeat match type of B with match ?v with _ => _ end = _ => destruct v; try discriminate end.
      - unfold integrator2d_body in B. destruct (integ_dyn _ _ _ _ _); cbn [bind] in B; [|discriminate]. injection B as <-.
        exists integ2_control_map, 2%nat. repeat split. intros n i' E. unfold integ2_control_map in E. names E; auto.
      - unfold integrator3d_body in B. destruct (integ_dyn _ _ _ _ _); cbn [bind] in B; [|discriminate]. injection B as <-.
        exists integ3_control_map, 3%nat. repeat split. intros n i' E. unfold integ3_control_map in E. names E; auto. }
    destruct Q as (cmap & k & Q1 & Q2 & Q3). cbn [decode_action] in D. rewrite Q2, Q3 in D.
    destruct (apply_items0 cmap Q1 _ _ _ D) as (l' & -> & Ll & Q). cbn [anth] in Bx. rewrite Q in Bx by auto.
    apply nth_error_In in Bx. exact (repeat_spec _ _ _ Bx).
  Qed.

  (** ** number_list_to_np *)
  Lemma shape_eqb_eq a : forall b, shape_eqb a b = true <-> a = b.
  Proof.
    induction a as [|x a IH]; intros [|y b]; cbn; split; intros H; try discriminate; auto.
    - apply andb_prop in H as [H1 H2]. apply Nat.eqb_eq in H1. apply IH in H2. congruence.
    - injection H as -> ->. rewrite Nat.eqb_refl. apply IH. auto.
  Qed.
  Lemma nl_number (p : pynum T) shape : number_list_to_np (NAnum p) shape =
    Ok {| nd_shape := shape; nd_is_f64 := true; nd_data := Some (repeat (nmul (pyfloat p) n1) (size_of shape)) |}.
  Proof. unfold number_list_to_np. cbn. rewrite (proj2 (shape_eqb_eq shape shape)) by auto. reflexivity. Qed.
  Lemma nl_array (a : nd T) shape : number_list_to_np (NAarr a) shape =
    if shape_eqb (nd_shape a) shape && nd_is_f64 a then Ok a else Err AssertionError.
  Proof. unfold number_list_to_np. cbn. destruct (shape_eqb _ _); cbn; auto. destruct (nd_is_f64 a); reflexivity. Qed.
  Lemma nl_list (l : list (pynum T)) shape a : number_list_to_np (NAlist l) shape = Ok a -> nd_data a = None.
  Proof.
    unfold number_list_to_np. cbn. destruct (shape_of_list l) as [s|]; cbn; [|discriminate].
    destruct (shape_eqb s shape); cbn; [|discriminate]. intros H. injection H as <-. reflexivity.
  Qed.
  Lemma nl_float_list (l : list (pynum T)) shape x : In (PyFloat x) l -> is_ok (number_list_to_np (NAlist l) shape) = false.
  Proof.
    intros I. unfold number_list_to_np. cbn.
    assert (is_ok (shape_of_list l) = false).
    { induction l as [|[z|y] l IH]; [destruct I| |reflexivity]. destruct I as [I|I]; [discriminate|].
      cbn [shape_of_list]. destruct (shape_of_list l); [specialize (IH I); discriminate|reflexivity]. }
    destruct (shape_of_list l); [discriminate|reflexivity].
  Qed.
End G.
