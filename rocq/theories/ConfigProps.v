(** Consequences of the configuration, equality and relative-motion lemmas in the form the
    property files use them. *)
From Coq Require Import String List Bool Arith ZArith Lia Reals Lra.
From Flocq Require Import Core.Core IEEE754.BinarySingleNaN.
From Verif Require Import PyBase Num Arr BaseModel Spec SpecBase XReal Float64 XTac Cwh Utils Rot2d SixDof Sun Integ Dubins
  Classes Units SpecClasses ClassLemmas EqLemmas EqLemmas2 ConfigLemmas IntegProps.
Import List ListNotations.
Local Open Scope R_scope.

Local Hint Extern 0 (Num xr) => exact (XR Fin) : typeclass_instances.

(** ** Equality *)
Definition lm1 : libm :=
  {| lm_sin := fun x => x; lm_cos := fun _ => fl 1 1; lm_tan := fun x => x; lm_asin := fun x => x; lm_pow := fun x _ => x |}.
Definition dub2F (v : f64) : obj f64 :=
  let e := dubins2d_aircraft (N := F64 lm1) 0 "Euler" (fl 200 1) (fl 400 1) (fl (-1) 1) (fl 1 1) (fl (-96) 1) (fl 96 1)
             (fl 0 1) (fl 0 1) (fl 0 1) (fl 200 1) in
  let o := {| o_id := 1; o_cls := Dubins2dAircraftC;
              o_ent := o_entity (entity_step (N := F64 lm1) (euler_world (N := F64 lm1)) e (fl 1 1) ANone) |} in
  match setattr (N := F64 lm1) o "v" false v with Ok o' => o' | Err _ => o end.
Lemma dub2_float32 :
  exists (lm : libm) (ae : f64 * f64 * f64 * f64 -> list f64) (a b : obj f64),
    lm_cos lm (fl 0 1) = fl 1 1 /\ lm_sin lm (fl 0 1) = fl 0 1 /\
    lib (o_cls a) = Dubins2dAircraftC /\ lib (o_cls b) = Dubins2dAircraftC /\
    py_eq (N := F64 lm) ae a b = Ok true /\
    match getattr (N := F64 lm) a "v", getattr (N := F64 lm) b "v" with
    | Ok va, Ok vb => Beqb va (fl 200 1) = true /\ Bltb va vb = true
    | _, _ => False
    end.
Proof.
  exists lm1, (fun _ => [fl 0 1; fl 0 1; fl 0 1]), (dub2F (fl 200 1)), (dub2F (fl (200 * 2^40 + 1) (2^40))).
  split; [reflexivity|]. split; [reflexivity|]. split; [vm_compute; reflexivity|]. split; [vm_compute; reflexivity|].
  split; [vm_compute; reflexivity|]. vm_compute. split; reflexivity.
Qed.

Definition bare (c : cls) (l : list R) : obj xr :=
  {| o_id := 0; o_cls := c;
     o_ent := mk_entity (dubins2d_dyn (Fin 0) (Fin 0) 0 "Euler") (A1 []) (A1 []) (A1 []) None (A1 (map Fin l)) |}.
Lemma rot_turn : exists a b : obj xr,
    is_a CWHRotation2dSpacecraftC [0; 0; 0; 0; 0; 0] a /\ is_a CWHRotation2dSpacecraftC [0; 0; 2 * PI; 0; 0; 0] b /\
    forall ae, py_eq ae a b = Ok false.
Proof.
  exists (bare CWHRotation2dSpacecraftC [0; 0; 0; 0; 0; 0]), (bare CWHRotation2dSpacecraftC [0; 0; 2 * PI; 0; 0; 0]).
  split; [split; reflexivity|]. split; [split; reflexivity|]. intros ae.
  destruct (rot_eq Fin ae (bare CWHRotation2dSpacecraftC [0; 0; 0; 0; 0; 0]) (bare CWHRotation2dSpacecraftC [0; 0; 2 * PI; 0; 0; 0])
              0 0 0 0 0 0 0 0 (2 * PI) 0 0 0) as (r & E & H); [split; reflexivity|split; reflexivity|].
  rewrite E. destruct r; [|reflexivity]. exfalso. destruct (proj1 H eq_refl) as (_ & _ & _ & _ & _ & k & Hk).
  pose proof PI_RGT_0. assert (Q : 2 * IZR k = 1) by nra. rewrite <- mult_IZR in Q. apply (eq_IZR (2 * k) 1) in Q. lia.
Qed.

(** ** Relative motion *)
Lemma rel_laws s (a b c : obj xr) na nb nc pa va pb vb pc vc :
    registered s na a -> registered s nb b -> registered s nc c -> at_ a pa va -> at_ b pb vb -> at_ c pc vc ->
    exists ab ba bc ac aa wab wba wbc wac waa : list R,
      entity_relative_position s a nb = Ok (A1 (map Fin ab)) /\ entity_relative_position s b na = Ok (A1 (map Fin ba)) /\
      entity_relative_position s b nc = Ok (A1 (map Fin bc)) /\ entity_relative_position s a nc = Ok (A1 (map Fin ac)) /\
      entity_relative_position s a na = Ok (A1 (map Fin aa)) /\
      entity_relative_velocity s a nb = Ok (A1 (map Fin wab)) /\ entity_relative_velocity s b na = Ok (A1 (map Fin wba)) /\
      entity_relative_velocity s b nc = Ok (A1 (map Fin wbc)) /\ entity_relative_velocity s a nc = Ok (A1 (map Fin wac)) /\
      entity_relative_velocity s a na = Ok (A1 (map Fin waa)) /\
      (forall i, (i < 3)%nat ->
         nth i ba 0 = - nth i ab 0 /\ nth i ac 0 = nth i ab 0 + nth i bc 0 /\ nth i aa 0 = 0 /\
         nth i wba 0 = - nth i wab 0 /\ nth i wac 0 = nth i wab 0 + nth i wbc 0 /\ nth i waa 0 = 0).
Proof.
  destruct pa as [[? ?] ?], va as [[? ?] ?], pb as [[? ?] ?], vb as [[? ?] ?], pc as [[? ?] ?], vc as [[? ?] ?].
  intros Ra Rb Rc Aa Ab Ac.
  destruct (rel_value _ _ _ _ _ _ _ _ _ _ _ _ _ _ _ _ Aa Rb Ab) as [P1 V1].
  destruct (rel_value _ _ _ _ _ _ _ _ _ _ _ _ _ _ _ _ Ab Ra Aa) as [P2 V2].
  destruct (rel_value _ _ _ _ _ _ _ _ _ _ _ _ _ _ _ _ Ab Rc Ac) as [P3 V3].
  destruct (rel_value _ _ _ _ _ _ _ _ _ _ _ _ _ _ _ _ Aa Rc Ac) as [P4 V4].
  destruct (rel_value _ _ _ _ _ _ _ _ _ _ _ _ _ _ _ _ Aa Ra Aa) as [P5 V5].
  eexists _, _, _, _, _, _, _, _, _, _.
  repeat (split; [eassumption|]). intros [|[|[|i]]] H; [| | |lia]; cbn [nth]; repeat split; lra.
Qed.

Section G.
  Context {T : Type} {N : Num T}.
  Lemma rel_class (o : obj T) : In (lib (o_cls o)) [CWHSpacecraftC; CWHRotation2dSpacecraftC; SixDOFSpacecraftC] ->
    has_relative (o_cls o) = true.
  Proof. unfold has_relative. intros [<-|[<-|[<-|[]]]]; reflexivity. Qed.
  Lemma get_none {A} (d : list (string * A)) k : ~ In k (map fst d) -> dict_get k d = None.
  Proof.
    induction d as [|[k' v'] d IH]; cbn; [auto|]. intros H. destruct (String.eqb_spec k k'); [subst; tauto|]. apply IH. tauto.
  Qed.
  Lemma rel_unknown (d : list (string * obj T)) o name :
    In (lib (o_cls o)) [CWHSpacecraftC; CWHRotation2dSpacecraftC; SixDOFSpacecraftC] -> ~ In name (map fst d) ->
    entity_relative_position (Some d) o name = Err KeyError /\ entity_relative_velocity (Some d) o name = Err KeyError.
  Proof.
    intros H Hn. unfold entity_relative_position, entity_relative_velocity. rewrite (rel_class o H). cbn [sim_get].
    rewrite (get_none d name Hn). auto.
  Qed.
  Lemma rel_sun (d : list (string * obj T)) o sun name :
    In (lib (o_cls o)) [CWHSpacecraftC; CWHRotation2dSpacecraftC; SixDOFSpacecraftC] -> dict_get name d = Some sun ->
    lib (o_cls sun) = SunEntityC ->
    entity_relative_position (Some d) o name = Err NotImplementedError /\
    entity_relative_velocity (Some d) o name = Err NotImplementedError.
  Proof.
    intros H Hn Hs. unfold entity_relative_position, entity_relative_velocity. rewrite (rel_class o H). cbn [sim_get].
    rewrite Hn. unfold position, velocity. cbn [bind]. rewrite Hs. auto.
  Qed.

  (** ** Configuration *)
  Lemma make_plain w id c p (kw : kwargs T) o f k v x : make w id c p kw = Ok o ->
    In (f, k) (documented_fields c) -> dict_get f kw = Some v -> v = CNum x \/ (exists s, v = CStr s (Some x)) ->
    getattr o (shown_as f) = Ok (nf32 x).
  Proof.
    intros H J G Hv. pose proof (make_inv _ _ _ _ _ _ H) as (L & _).
    destruct (documented_field c p f k L J) as (Gf & Il).
    destruct (make_layout _ _ _ _ _ _ _ H Il) as (k' & y & Gf' & Hy & Ga). rewrite G in Hy. rewrite Ga.
    destruct Hv as [->|(s & ->)]; destruct k'; cbn in Hy; congruence.
  Qed.
  Lemma make_shown w id c p (kw : kwargs T) o f k : make w id c p kw = Ok o -> In (f, k) (documented_fields c) ->
    (forall x, dict_get f kw = Some (CNum x) -> getattr o (shown_as f) = Ok (nf32 x)) /\
    (dict_get f kw = None -> getattr o (shown_as f) = Ok (nf32 (documented_default f))).
  Proof.
    intros H J. split; [intros x G; eapply make_plain; eauto|]. intros G.
    pose proof (make_inv _ _ _ _ _ _ H) as (L & _). destruct (documented_field c p f k L J) as (Gf & Il).
    destruct (make_layout _ _ _ _ _ _ _ H Il) as (k' & y & Gf' & Hy & Ga). rewrite G in Hy. congruence.
  Qed.
  Lemma make_len w id c p (kw : kwargs T) o : make w id c p kw = Ok o ->
    exists l, e_state (o_ent o) = A1 l /\ length l = state_len c.
  Proof.
    intros H. apply make_inv in H as (L & _ & _ & _ & cfg & vals & _ & M & _ & St).
    exists (map nf32 vals). split; auto. rewrite map_length.
    assert (length vals = length (layout c)) as ->.
    { clear - M. revert vals M. induction (layout c) as [|f l IH]; cbn [mapM]; intros vals M; [injection M as <-; reflexivity|].
      destruct (cget cfg f); cbn [bind] in M; [|discriminate]. destruct (mapM _ l); cbn [bind] in M; [|discriminate].
      injection M as <-. cbn. f_equal. auto. }
    unfold layout, state_len. rewrite L. destruct p; reflexivity.
  Qed.
  Lemma foreign_rejected w id c p (kw : kwargs T) f : lib c = pcls p -> py_new c = Ok tt -> good_params w p ->
    In f (map fst kw) -> f <> "name"%string ->
    ~ In f (map fst (documented_fields c)) -> ~ In f ["y"; "z"; "ydot"; "zdot"]%string ->
    make w id c p kw = Err ValueError.
  Proof.
    intros L Py G J Nn Nd Ns. apply make_value_error; auto. apply make_unknown with (f := f); auto.
    intros Q. unfold documented_fields, fields in *. rewrite L in *. destruct p; cbn in *; intuition.
  Qed.
  Lemma unknown_rejected w id c p (kw : kwargs T) f : lib c = pcls p -> py_new c = Ok tt -> good_params w p ->
    ~ In (lib c) [Dubins2dAircraftC; Integrator1dC; Integrator2dC] ->
    In f (map fst kw) -> f <> "name"%string -> ~ In f (map fst (documented_fields c)) ->
    make w id c p kw = Err ValueError.
  Proof.
    intros L Py G Nc J Nn Nd. apply make_value_error; auto. apply make_unknown with (f := f); auto.
    intros Q. unfold documented_fields, fields in *. rewrite L in *. destruct p; cbn in *; intuition.
  Qed.

  Lemma nl_array_cases (a : nd T) shape :
    (nd_shape a = shape /\ nd_is_f64 a = true -> number_list_to_np (NAarr a) shape = Ok a) /\
    (nd_shape a <> shape \/ nd_is_f64 a = false -> number_list_to_np (NAarr a) shape = Err AssertionError).
  Proof.
    rewrite nl_array. destruct (shape_eqb (nd_shape a) shape) eqn:E.
    - apply shape_eqb_eq in E. destruct (nd_is_f64 a); cbn; (split; [|intros [H|H]]); try congruence; auto. intros [_ H]; discriminate.
    - assert (nd_shape a <> shape) by (intros Q; apply shape_eqb_eq in Q; congruence). cbn. split; [tauto|auto].
  Qed.
End G.
