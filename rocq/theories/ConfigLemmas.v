(** Relative motion, unit conversion and configuration. *)
From Coq Require Import String List Bool Arith ZArith Lia Reals Lra.
From Flocq Require Import Core.Core IEEE754.BinarySingleNaN.
From Verif Require Import PyBase Num Arr BaseModel Spec SpecBase XReal Float64 NumOrdLemmas ArrLemmas
  XTac Cwh Utils Rot2d SixDof Sun Integ Dubins Classes Units SpecWrap SpecClasses ClassLemmas.
Import ListNotations.
Local Open Scope R_scope.

(** ** Relative motion *)
Local Hint Extern 0 (Num xr) => exact (XR Fin) : typeclass_instances.

Lemma aidx_inv {T} (a : arr T) i x : aidx a i = Ok x -> exists l, a = A1 l /\ nth_error l i = Some x.
Proof. destruct a as [|l]; cbn; [discriminate|]. destruct (nth_error l i) eqn:E; [|discriminate]. intros H. injection H as ->. eauto. Qed.

Lemma at_vectors o x y z vx vy vz : at_ o (x, y, z) (vx, vy, vz) ->
  position o = Ok (A1 (map Fin [x; y; z])) /\ velocity o = Ok (A1 (map Fin [vx; vy; vz])).
Proof.
  intros (Hr & Hx & Hy & Hz & Hvx & Hvy & Hvz). unfold has_relative in Hr. unfold getattr, accessors in *.
  unfold position, velocity.
  destruct (lib (o_cls o)); try discriminate;
    unfold cwh_position, cwh_velocity, rot2d_position, rot2d_velocity, sixdof_position, sixdof_velocity;
    cbn [dict_get String.eqb Ascii.eqb Bool.eqb read_accessor] in *.
  - apply aidx_inv in Hx as (l & E & X0). rewrite E in *. cbn [aidx] in *.
    destruct l as [|a0 [|a1 [|a2 [|a3 [|a4 [|a5 l]]]]]]; cbn in *; try discriminate.
    split; congruence.
  - rewrite Hx, Hy, Hvx, Hvy. cbn [bind]. injection Hz as Hz. injection Hvz as Hvz.
    cbn [n0 nZ nlit XR] in *. split; cbn [map]; congruence.
  - rewrite Hx, Hy, Hz, Hvx, Hvy, Hvz. split; reflexivity.
Qed.

Lemma rel_value s o o' name x y z vx vy vz x' y' z' vx' vy' vz' :
  at_ o (x, y, z) (vx, vy, vz) -> registered s name o' -> at_ o' (x', y', z') (vx', vy', vz') ->
  entity_relative_position s o name = Ok (A1 (map Fin [x' - x; y' - y; z' - z])) /\
  entity_relative_velocity s o name = Ok (A1 (map Fin [vx' - vx; vy' - vy; vz' - vz])).
Proof.
  intros A (d & -> & G) A'. pose proof A as (Hr & _).
  apply at_vectors in A as [P V]. apply at_vectors in A' as [P' V'].
  unfold entity_relative_position, entity_relative_velocity. rewrite Hr. cbn [sim_get]. rewrite G. cbn [bind].
  rewrite P, V, P', V'. cbn [bind map bmap2 length Nat.eqb zipw nsub XR xsub]. auto.
Qed.

(** ** Units *)
Lemma conv_ok (q : quantity xr) (u : punit xr) m f g : q_mag q = Fin m -> u_factor (q_unit q) = Fin f ->
  u_factor u = Fin g -> g <> 0 -> u_dim (q_unit q) = u_dim u ->
  (u_text (q_unit q) = u_text u -> f = g) ->
  exists x, quantity_to q u = Some (Fin x) /\ x * g = m * f.
Proof.
  intros Hm Hf Hg Ng Hd Ht. unfold quantity_to. destruct (String.eqb_spec (u_text (q_unit q)) (u_text u)).
  - exists m. rewrite Hm. split; auto. rewrite Ht; auto.
  - destruct (list_eq_dec _ _ _); [|contradiction]. rewrite Hm, Hf, Hg. cbn. rewrite Req_bool_false by auto.
    exists (m * (f / g)). split; auto. field; auto.
Qed.

(** ** Configuration *)
Section Cfg.
  Context {T : Type} {N : Num T}.

  Lemma mapM_dict {A} (F : string * A -> res (string * T)) (fs : list (string * A)) :
    (forall n a p, F (n, a) = Ok p -> fst p = n) ->
    forall cfg, mapM F fs = Ok cfg ->
    forall n a, dict_get n fs = Some a -> exists x, F (n, a) = Ok (n, x) /\ dict_get n cfg = Some x.
  Proof.
    intros HF. induction fs as [|[n0 a0] fs IH]; cbn [mapM dict_get]; [discriminate|]. intros cfg H n a G.
    destruct (F (n0, a0)) as [[n1 x1]|] eqn:E; cbn [bind] in H; [|discriminate].
    destruct (mapM F fs) as [c1|] eqn:E1; cbn [bind] in H; [|discriminate]. injection H as <-.
    pose proof (HF _ _ _ E) as Q. cbn in Q. subst n1. cbn [dict_get].
    destruct (String.eqb_spec n n0).
    - subst. injection G as ->. eauto.
    - eauto.
  Qed.

  Lemma mapM_nth {A B} (F : A -> res B) : forall l vals, mapM F l = Ok vals ->
    forall i a, nth_error l i = Some a -> exists b, F a = Ok b /\ nth_error vals i = Some b.
  Proof.
    induction l as [|a0 l IH]; cbn [mapM]; intros vals H i a G; [destruct i; discriminate|].
    destruct (F a0) as [b0|] eqn:E; cbn [bind] in H; [|discriminate].
    destruct (mapM F l) as [c1|] eqn:E1; cbn [bind] in H; [|discriminate]. injection H as <-.
    destruct i; cbn in *; [injection G as <-; eauto|eauto].
  Qed.

  Lemma validate_field c (kw : kwargs T) cfg n k d : validate c kw = Ok cfg -> dict_get n (fields c) = Some (k, d) ->
    exists x, dict_get n cfg = Some x /\
      match dict_get n kw with None => x = d | Some v => check_field k v = Ok x end.
  Proof.
    unfold validate. destruct (dict_get "name" kw) as [[]|]; try discriminate.
    destruct (forallb _ _); [|discriminate]. intros H G.
    eapply mapM_dict in H as (x & E & Gx); [| |exact G].
    - exists x. split; auto. cbn in E. destruct (dict_get n kw) as [v|].
      + destruct (check_field k v); cbn [bind] in E; [|discriminate]. congruence.
      + congruence.
    - intros m [k' d'] [m' y]; cbn. destruct (dict_get m kw) as [v|]; [destruct (check_field k' v); cbn [bind]|]; intros Q; try discriminate; congruence.
  Qed.

  (** The state built by a constructor body. *)
  Lemma body_state w (p : params T) vals e : body w p vals = Ok e -> e_state e = A1 (map nf32 vals).
  Proof.
    destruct p; cbn [Units.body]; intros H.
    all: repeat match type of H with match ?v with _ => _ end = _ => destruct v; try discriminate end.
    - unfold cwh_spacecraft in H. destruct (cwh_dyn _ _ _ _); cbn [bind] in H; [|discriminate]. injection H as <-. reflexivity.
    - unfold rot2d_spacecraft in H.
      repeat match type of H with bind ?x _ = _ => destruct x; cbn [bind] in H; [|discriminate] end. injection H as <-. reflexivity.
    - unfold sixdof_spacecraft in H.
      do 2 (match type of H with bind ?x _ = _ => destruct x; cbn [bind] in H; [|discriminate] end).
      do 2 (match type of H with bind ?x _ = _ => destruct x as [[[? ?] ?]|]; cbn [bind] in H; [|discriminate] end).
      match type of H with bind ?x _ = _ => destruct x; cbn [bind] in H; [|discriminate] end.
      injection H as <-. reflexivity.
    - unfold sun_entity in H. destruct (sun_dyn _ _ _ _); cbn [bind] in H; [|discriminate]. injection H as <-. reflexivity.
    - unfold integrator1d_body in H. destruct (integ_dyn _ _ _ _ _); cbn [bind] in H; [|discriminate]. injection H as <-. reflexivity.
    - unfold integrator2d_body in H. destruct (integ_dyn _ _ _ _ _); cbn [bind] in H; [|discriminate]. injection H as <-. reflexivity.
    - unfold integrator3d_body in H. destruct (integ_dyn _ _ _ _ _); cbn [bind] in H; [|discriminate]. injection H as <-. reflexivity.
    - injection H as <-. reflexivity.
    - injection H as <-. reflexivity.
  Qed.

  Lemma make_inv w id c p (kw : kwargs T) o : make w id c p kw = Ok o ->
    lib c = pcls p /\ o_id o = id /\ o_cls o = c /\ py_new c = Ok tt /\ exists cfg vals, validate c kw = Ok cfg /\
      mapM (cget cfg) (layout c) = Ok vals /\ body w p vals = Ok (o_ent o) /\ e_state (o_ent o) = A1 (map nf32 vals).
  Proof.
    unfold make, construct. destruct (cls_eqb (lib c) (pcls p)) eqn:E; [|discriminate]. apply cls_eqb_eq in E.
    destruct (py_new c) as [[]|] eqn:Ep; cbn [bind]; [|discriminate].
    destruct (body w p (repeat n0 _)); cbn [bind]; [|discriminate].
    destruct (validate c kw) as [cfg|] eqn:Ev; cbn [bind]; [|discriminate].
    destruct (mapM (cget cfg) (layout c)) as [vals|] eqn:Em; cbn [bind]; [|discriminate].
    destruct (body w p vals) as [e|] eqn:Eb; cbn [bind]; [|discriminate]. intros H. injection H as <-. cbn [o_id o_cls o_ent].
    repeat (split; [auto; fail|]). exists cfg, vals. repeat (split; [auto; fail|]). eapply body_state; eauto.
  Qed.

  Lemma layout_elem c (p : params T) f i : lib c = pcls p -> nth_error (layout c) i = Some f ->
    dict_get (shown_as f) (accessors c) = Some (Elem i) /\
    exists k, dict_get f (fields (N := N) c) = Some (k, documented_default f).
  Proof.
    intros L G. unfold layout, accessors, fields in *. rewrite L in *.
    destruct p; cbn [pcls] in *; cbn in G;
      repeat (destruct i as [|i]; cbn in G; [injection G as <-; split; [reflexivity|eexists; reflexivity]|]);
      destruct i; discriminate.
  Qed.

  (** Each configured value is shown by the attribute of its name, as float32. *)
  Lemma make_layout w id c p (kw : kwargs T) o f : make w id c p kw = Ok o -> In f (layout c) ->
    exists k x, dict_get f (fields c) = Some (k, documented_default f) /\
      match dict_get f kw with None => x = documented_default f | Some v => check_field k v = Ok x end /\
      getattr o (shown_as f) = Ok (nf32 x).
  Proof.
    intros H I. apply make_inv in H as (L & _ & Ec & _ & cfg & vals & V & M & B & St).
    apply In_nth_error in I as (i & Hi). destruct (layout_elem c p f i L Hi) as (Ga & k & Gf).
    destruct (mapM_nth _ _ _ M i f Hi) as (b & Gb & Nb). unfold cget in Gb.
    destruct (validate_field _ _ _ _ _ _ V Gf) as (x & Gx & Hx). rewrite Gx in Gb. injection Gb as <-.
    exists k, x. split; auto. split; auto. unfold getattr. rewrite Ec, Ga. cbn [read_accessor]. rewrite St. cbn [aidx].
    rewrite (map_nth_error _ _ _ Nb). reflexivity.
  Qed.

  Lemma not_mem n l : ~ In n l -> mem n l = false.
  Proof.
    intros H. unfold mem. apply not_true_is_false. intros E. apply existsb_exists in E as (x & I & Q).
    apply String.eqb_eq in Q. subst. auto.
  Qed.
  Lemma make_unknown w id c p (kw : kwargs T) f : In f (map fst kw) -> f <> "name"%string -> ~ In f (map fst (fields (N := N) c)) ->
    is_ok (make w id c p kw) = false.
  Proof.
    intros I Nn Nf. destruct (make w id c p kw) as [o|] eqn:E; auto. exfalso.
    apply make_inv in E as (_ & _ & _ & _ & cfg & vals & V & _). unfold validate in V.
    destruct (dict_get "name" kw) as [[]|]; try discriminate.
    destruct (forallb _ _) eqn:F; [|discriminate]. rewrite forallb_forall in F. specialize (F f I).
    rewrite not_mem in F; [discriminate|]. cbn. intros [?|?]; congruence.
  Qed.
  Lemma make_no_name w id c p (kw : kwargs T) : dict_get "name" kw = None -> is_ok (make w id c p kw) = false.
  Proof.
    intros Nn. destruct (make w id c p kw) as [o|] eqn:E; auto. exfalso.
    apply make_inv in E as (_ & _ & _ & _ & cfg & vals & V & _). unfold validate in V. rewrite Nn in V. discriminate.
  Qed.
  Lemma make_bad_field w id c p (kw : kwargs T) f k d v x : dict_get f (fields c) = Some (k, d) -> dict_get f kw = Some v ->
    check_field k v = Err x -> is_ok (make w id c p kw) = false.
  Proof.
    intros Gf Gv Ck. destruct (make w id c p kw) as [o|] eqn:E; auto. exfalso.
    apply make_inv in E as (_ & _ & _ & _ & cfg & vals & V & _).
    destruct (validate_field _ _ _ _ _ _ V Gf) as (y & _ & Hy). rewrite Gv in Hy. congruence.
  Qed.

  (** Conversely: valid configurations are accepted. *)
  Lemma validate_ok c (kw : kwargs T) s num : dict_get "name" kw = Some (CStr s num) ->
    (forall f, In f (map fst kw) -> f = "name"%string \/ In f (map fst (fields (N := N) c))) ->
    (forall f k d v, In (f, (k, d)) (fields c) -> dict_get f kw = Some v -> exists x, check_field k v = Ok x) ->
    exists cfg, validate c kw = Ok cfg.
  Proof.
    intros Nm Kn Fl. unfold validate. rewrite Nm.
    assert (forallb (fun k => mem k ("name"%string :: map fst (fields (N := N) c))) (map fst kw) = true) as ->.
    { apply forallb_forall. intros f I. unfold mem. apply existsb_exists. exists f. split; [|apply String.eqb_refl].
      destruct (Kn f I) as [->|]; [left|right]; auto. }
    revert Fl. generalize (fields (N := N) c). intros fs. induction fs as [|[f [k d]] fs IH]; intros Fl; cbn [mapM]; [eauto|].
    destruct IH as (cfg & ->); [intros; eapply Fl; [right; eauto|auto]|].
    destruct (dict_get f kw) as [v|] eqn:E; cbn [bind]; [|eauto].
    destruct (Fl f k d v (or_introl eq_refl) E) as (x & ->). cbn [bind]. eauto.
  Qed.

  Lemma dict_get_in {A} (d : list (string * A)) k : In k (map fst d) -> exists v, dict_get k d = Some v.
  Proof.
    induction d as [|[k' v'] d IH]; cbn; [intros []|]. intros [->|I].
    - rewrite String.eqb_refl. eauto.
    - destruct (String.eqb k k'); eauto.
  Qed.

  Lemma mapM_total {A B} (F : A -> res B) l : (forall a, In a l -> exists b, F a = Ok b) -> exists vals, mapM F l = Ok vals /\ length vals = length l.
  Proof.
    induction l as [|a l IH]; intros H; cbn [mapM]; [exists []; auto|].
    destruct (H a (or_introl eq_refl)) as (b & ->). destruct IH as (vals & -> & L); [intros; apply H; right; auto|].
    cbn [bind]. exists (b :: vals). cbn. auto.
  Qed.

  Lemma make_ok w id c p (kw : kwargs T) s num : lib c = pcls p -> py_new c = Ok tt ->
    (forall vals, length vals = length (layout c) -> exists e, body w p vals = Ok e) ->
    dict_get "name" kw = Some (CStr s num) ->
    (forall f, In f (map fst kw) -> f = "name"%string \/ In f (map fst (fields (N := N) c))) ->
    (forall f k d v, In (f, (k, d)) (fields c) -> dict_get f kw = Some v -> exists x, check_field k v = Ok x) ->
    exists o, make w id c p kw = Ok o.
  Proof.
    intros L Py Hb Nm Kn Fl. unfold make, construct. rewrite L, cls_eqb_refl, Py. cbn [bind].
    destruct (Hb (repeat n0 (length (layout c)))) as (e0 & ->); [apply repeat_length|]. cbn [bind].
    destruct (validate_ok c kw s num Nm Kn Fl) as (cfg & V). rewrite V. cbn [bind].
    destruct (mapM_total (cget cfg) (layout c)) as (vals & -> & Lv).
    { intros f I. apply In_nth_error in I as (i & Hi). destruct (layout_elem c p f i L Hi) as (_ & k & Gf).
      destruct (validate_field _ _ _ _ _ _ V Gf) as (x & Gx & _). unfold cget. rewrite Gx. eauto. }
    cbn [bind]. destruct (Hb vals Lv) as (e & ->). cbn [bind]. eauto.
  Qed.
End Cfg.

Section Cfg2.
  Context {T : Type} {N : Num T}.

  Lemma cwh_mats (m n : T) mode : mode = "2d"%string \/ mode = "3d"%string -> neqb m n0 = false -> exists A B, generate_cwh_matrices m n mode = Ok (A, B) /\
    is_rect A (length A) = true /\ Nat.eqb (length A) (length B) = true.
  Proof. intros [->| ->] H; unfold generate_cwh_matrices, pydiv; rewrite H; cbn [bind py_assert String.eqb Ascii.eqb Bool.eqb orb]; eexists _, _; repeat split. Qed.

  Lemma three_ok (a : numarg T) : three_numbers a -> exists nd x y z, number_list_to_np a [3%nat] = Ok nd /\ limit3 nd = Ok (x, y, z).
  Proof.
    destruct a as [q|l|x|]; cbn; try contradiction.
    - intros _. eexists _, _, _, _. split; reflexivity.
    - intros (H1 & H2 & a & b & c & H3). rewrite H1, H2. cbn. exists x, a, b, c. unfold limit3. rewrite H3. auto.
  Qed.

  Lemma body_ok w (p : params T) vals : good_params w p -> length vals = length (layout (pcls p)) ->
    exists e, body w p vals = Ok e.
  Proof.
    destruct p; cbn [pcls layout lib length good_params]; intros G L;
      repeat (destruct vals as [|? vals]; cbn in L; try lia); cbn [Units.body].
    - unfold cwh_spacecraft, cwh_dyn, linear_dyn. destruct (cwh_mats m n "3d" (or_intror eq_refl) G) as (A & B & -> & H1 & H2). cbn [bind].
      rewrite H1, H2. cbn. eauto.
    - destruct G as (G1 & G2 & G3). unfold rot2d_spacecraft, rot2d_limit, rot2d_dyn, pydiv. rewrite G2. cbn [bind].
      assert (jax && negb (w_jax w) = false) as -> by (destruct jax; cbn; auto; rewrite G3; auto).
      destruct (cwh_mats m n "2d" (or_introl eq_refl) G1) as (A & B & -> & H1 & H2). cbn [bind]. rewrite H1, H2. cbn. eauto.
    - destruct G as (G1 & G2 & G3). unfold sixdof_spacecraft.
      destruct (three_ok acc G2) as (a1 & a2 & a3 & a4 & -> & Ha), (three_ok vel G3) as (b1 & b2 & b3 & b4 & -> & Hb). cbn [bind].
      rewrite Ha, Hb. cbn [bind]. unfold sixdof_dyn.
      destruct (cwh_mats m n "3d" (or_intror eq_refl) G1) as (A & B & -> & H1 & H2). cbn [bind]. rewrite H1, H2. cbn. eauto.
    - unfold sun_entity, sun_dyn, mk_dyn. cbn [d_use_jax].
      assert (jax && negb (w_jax w) = false) as -> by (destruct jax; cbn; auto; rewrite G; auto). cbn. eauto.
    - unfold integrator1d_body, integ_dyn, generate_dynamics_matrices, pydiv. rewrite G. cbn. eauto.
    - unfold integrator2d_body, integ_dyn, generate_dynamics_matrices, pydiv. rewrite G. cbn. eauto.
    - unfold integrator3d_body, integ_dyn, generate_dynamics_matrices, pydiv. rewrite G. cbn. eauto.
    - eauto.
    - eauto.
  Qed.

  (** The model's field table against the documented one. *)
  Definition kind_unit (c : cls) (k : qkind) : fkind :=
    match k with
    | Length => FUnit (if aircraft c then foot else meter)
    | Speed => FUnit (if aircraft c then unit_div foot second else unit_div meter second)
    | Angle => FUnit radian
    | AngularRate => FUnit (unit_div radian second)
    | Number => FFloat
    end.
  Lemma documented_field c (p : params T) f k : lib c = pcls p -> In (f, k) (documented_fields c) ->
    dict_get f (fields (N := N) c) = Some (kind_unit c k, documented_default f) /\ In f (layout c).
  Proof.
    intros L I. unfold documented_fields, fields, layout, kind_unit, aircraft in *. rewrite L in *.
    destruct p; cbn [pcls] in *; cbn in I;
      repeat (destruct I as [I|I]; [injection I as <- <-; split; [reflexivity|cbn; auto 20]|]); destruct I.
  Qed.
  Lemma layout_documented c (p : params T) f : lib c = pcls p -> In f (layout c) -> exists k, In (f, k) (documented_fields c).
  Proof.
    intros L I. unfold documented_fields, layout in *. rewrite L in *.
    destruct p; cbn [pcls] in *; cbn in I; repeat (destruct I as [<-|I]; [eexists; cbn; eauto 20|]); destruct I.
  Qed.
  (** Accepted but unused fields exist (z of the 2d aircraft, y and z of the lower
      integrators). *)
  Lemma field_known c (p : params T) f : lib c = pcls p -> In f (map fst (documented_fields c)) -> In f (map fst (fields (N := N) c)).
  Proof.
    intros L I. apply in_map_iff in I as ([g k] & <- & I). destruct (documented_field c p g k L I) as (G & _).
    cbn. revert G. generalize (fields (N := N) c). intros fs. induction fs as [|[a b] fs IH]; cbn; [discriminate|].
    destruct (String.eqb_spec g a); [left; auto|right; auto].
  Qed.

  Lemma kind_unit_dim c k u : kind_unit c k = FUnit u -> u_dim u = kind_dim k /\
    In u [meter; foot; unit_div meter second; unit_div foot second; radian; unit_div radian second].
  Proof. destruct k; cbn; intros H; try discriminate; injection H as <-; destruct (aircraft c); cbn; auto 10. Qed.

  Lemma allowed_ok c k (v : cfgval T) : allowed k v -> exists x, check_field (kind_unit c k) v = Ok x.
  Proof.
    destruct v as [x|s [x|]|q|]; cbn [allowed]; try contradiction.
    - intros _. destruct k; cbn; eauto.
    - intros _. destruct k; cbn; eauto.
    - intros [_ D]. destruct (kind_unit c k) as [u|] eqn:E; cbn [check_field].
      + destruct (kind_unit_dim _ _ _ E) as [Du _]. cbn [unit_field]. unfold quantity_to.
        destruct (String.eqb _ _); [eauto|]. destruct (list_eq_dec _ _ _); [eauto|congruence].
      + cbn [float_field]. destruct (list_eq_dec _ _ _) as [|Ne]; [eauto|].
        destruct k; try discriminate. contradiction.
  Qed.

  Lemma fields_nodup c f k d : In (f, (k, d)) (fields (N := N) c) -> dict_get f (fields (N := N) c) = Some (k, d).
  Proof.
    unfold fields. intros I. destruct (lib c); cbn in I;
      repeat (destruct I as [I|I]; [injection I as <- <- <-; reflexivity|]); destruct I.
  Qed.

  Lemma make_good w id c p (kw : kwargs T) : lib c = pcls p -> py_new c = Ok tt -> good_params w p -> good_config c kw ->
    exists o, make w id c p kw = Ok o.
  Proof.
    intros L Py G ((s & num & Nm) & Kn & Al). eapply make_ok; eauto.
    - intros vals Lv. apply body_ok; auto. rewrite Lv. f_equal. unfold layout. rewrite L. destruct p; reflexivity.
    - intros f I. destruct (Kn f I) as [|I']; auto. right. eapply field_known; eauto.
    - intros f k d v I Gv.
      assert (In f (map fst kw)) as If.
      { clear - Gv. induction kw as [|[a b] kw IH]; cbn in *; [discriminate|]. destruct (String.eqb_spec f a); auto. }
      destruct (Kn f If) as [->|I'].
      + exfalso. clear - I. apply fields_nodup in I. unfold fields in I. destruct (lib c); discriminate.
      + apply in_map_iff in I' as ([g q] & <- & I'). cbn [fst] in *.
        destruct (documented_field c p g q L I') as (Gf & _). apply fields_nodup in I. rewrite Gf in I. injection I as <- <-.
        apply allowed_ok. eapply Al; eauto.
  Qed.

  (** All failures of validation are ValueErrors. *)
  Lemma check_err k (v : cfgval T) x : check_field k v = Err x -> x = ValueError.
  Proof.
    destruct k, v as [y|s [y|]|q|]; cbn; try discriminate; try congruence.
    - destruct (quantity_to q u); congruence.
    - destruct (list_eq_dec _ _ _); congruence.
  Qed.
  Lemma validate_err c (kw : kwargs T) x : validate c kw = Err x -> x = ValueError.
  Proof.
    unfold validate. destruct (dict_get "name" kw) as [[]|]; try congruence.
    destruct (forallb _ _); [|congruence]. generalize (fields (N := N) c). intros fs. revert x.
    induction fs as [|[f [k d]] fs IH]; cbn [mapM]; intros x H; [discriminate|].
    destruct (dict_get f kw) as [v|].
    - destruct (check_field k v) as [y|] eqn:Ck; cbn [bind] in H.
      + destruct (mapM _ fs) as [cfg|] eqn:E; cbn [bind] in H; [discriminate|]. injection H as <-. eapply IH; eauto.
      + injection H as <-. eapply check_err; eauto.
    - cbn [bind] in H. destruct (mapM _ fs) as [cfg|] eqn:E; cbn [bind] in H; [discriminate|]. injection H as <-. eapply IH; eauto.
  Qed.
  Lemma make_value_error w id c p (kw : kwargs T) : lib c = pcls p -> py_new c = Ok tt -> good_params w p ->
    is_ok (make w id c p kw) = false -> make w id c p kw = Err ValueError.
  Proof.
    intros L Py G. unfold make, construct. rewrite L, cls_eqb_refl, Py. cbn [bind].
    destruct (body_ok w p (repeat n0 (length (layout c))) G) as (e0 & ->).
    { rewrite repeat_length. f_equal. unfold layout. rewrite L. destruct p; reflexivity. }
    cbn [bind]. destruct (validate c kw) as [cfg|x] eqn:V; cbn [bind].
    - destruct (mapM_total (cget cfg) (layout c)) as (vals & -> & Lv).
      { intros f I. apply In_nth_error in I as (i & Hi). destruct (layout_elem c p f i L Hi) as (_ & k & Gf).
        destruct (validate_field _ _ _ _ _ _ V Gf) as (x & Gx & _). unfold cget. rewrite Gx. eauto. }
      cbn [bind]. destruct (body_ok w p vals G) as (e & ->).
      { rewrite Lv. f_equal. unfold layout. rewrite L. destruct p; reflexivity. }
      cbn. discriminate.
    - intros _. f_equal. eapply validate_err; eauto.
  Qed.
  Lemma make_rejects w id c p (kw : kwargs T) f k v : lib c = pcls p -> py_new c = Ok tt -> good_params w p ->
    In (f, k) (documented_fields c) -> dict_get f kw = Some v ->
    match v with
    | CNum _ | CStr _ (Some _) => False
    | CQty q => genuine (q_unit q) /\ u_dim (q_unit q) <> kind_dim k
    | _ => True
    end -> make w id c p kw = Err ValueError.
  Proof.
    intros L Py G I Gv Bad. apply make_value_error; auto. destruct (documented_field c p f k L I) as (Gf & _).
    eapply make_bad_field with (x := ValueError); eauto.
    destruct v as [y|s [y|]|q|]; try contradiction.
    - destruct k; reflexivity.
    - destruct Bad as [Ge Nd]. destruct (kind_unit c k) as [u|] eqn:E; cbn [check_field].
      + destruct (kind_unit_dim _ _ _ E) as [Du Iu]. cbn [unit_field]. unfold quantity_to.
        destruct (String.eqb_spec (u_text (q_unit q)) (u_text u)) as [Et|]; [exfalso; apply Nd; rewrite (Ge u Iu Et); auto|].
        destruct (list_eq_dec _ _ _); [congruence|reflexivity].
      + cbn [float_field]. destruct (list_eq_dec _ _ _); [|reflexivity]. destruct k; try discriminate. contradiction.
    - destruct k; reflexivity.
  Qed.
End Cfg2.

Section Q.
  Variable rd : R -> R.
  Local Hint Extern 0 (Num xr) => exact (XR (fun x => Fin (rd x))) : typeclass_instances.

  Lemma kind_unit_factor c k u : kind_unit (T := xr) c k = FUnit u -> u_factor u = Fin (kind_factor c k) /\ kind_factor c k <> 0.
  Proof.
    destruct k; cbn [kind_unit kind_factor]; intros H; try discriminate; injection H as <-; destruct (aircraft c);
      cbn; rewrite ?(Req_bool_false (1 / 1) 0) by lra; (split; [f_equal|]; lra).
  Qed.

  Lemma make_quantity w id c p (kw : kwargs xr) o f k q m fq : make w id c p kw = Ok o ->
    In (f, k) (documented_fields c) -> k <> Number -> dict_get f kw = Some (CQty q) -> genuine (q_unit q) ->
    q_mag q = Fin m -> u_factor (q_unit q) = Fin fq ->
    u_dim (q_unit q) = kind_dim k /\
    exists x, getattr o f = Ok (Fin (rd x)) /\ x * kind_factor c k = m * fq.
  Proof.
    intros H I Nk Gq Ge Hm Hf.
    pose proof (make_inv _ _ _ _ _ _ H) as (L & _ & Ec & _).
    destruct (documented_field c p f k L I) as (Gf & Il).
    destruct (make_layout _ _ _ _ _ _ _ H Il) as (k' & x & Gf' & Hx & Ga).
    rewrite Gf in Gf'. injection Gf' as <-. rewrite Gq in Hx.
    destruct (kind_unit c k) as [u|] eqn:E; [|destruct k; try discriminate; contradiction].
    cbn [check_field unit_field] in Hx.
    destruct (kind_unit_dim _ _ _ E) as [Du Iu]. destruct (kind_unit_factor _ _ _ E) as [Fu Nz].
    assert (D : u_dim (q_unit q) = kind_dim k).
    { unfold quantity_to in Hx. destruct (String.eqb_spec (u_text (q_unit q)) (u_text u)) as [Et|].
      - rewrite (Ge u Iu Et). auto.
      - destruct (list_eq_dec _ _ _); [congruence|discriminate]. }
    split; auto.
    destruct (conv_ok q u m fq (kind_factor c k) Hm Hf Fu Nz) as (y & Q & Ey); [congruence| |].
    { intros Et. pose proof (Ge u Iu Et) as Eu. rewrite Eu in Hf. congruence. }
    change (quantity_to (N := XR Fin) q u) with (quantity_to (N := XR (fun x => Fin (rd x))) q u) in Q.
    rewrite Q in Hx. injection Hx as <-. exists y. split; auto.
    replace (shown_as f) with f in Ga; [exact Ga|].
    clear - I Nk L. unfold documented_fields in I. rewrite L in I.
    destruct p; cbn [pcls] in I; cbn in I;
      repeat (destruct I as [I|I]; [injection I as <- <-; first [reflexivity | contradiction]|]); destruct I.
  Qed.

  Lemma view_unit c (p : params xr) f k : lib c = pcls p -> In (f, k) (documented_fields c) -> k <> Number -> f <> "theta"%string ->
    exists u, kind_unit (T := xr) c k = FUnit u /\ dict_get (view_of f) (unit_views (T := xr) c) = Some (f, u).
  Proof.
    intros L I Nk Nt. unfold documented_fields, unit_views, units_of, kind_unit, aircraft in *. rewrite L in *.
    destruct p; cbn [pcls] in *; cbn in I;
      repeat (destruct I as [I|I]; [injection I as <- <-; first [contradiction | eexists; split; reflexivity]|]); destruct I.
  Qed.

  Lemma view_roundtrip w id c p (kw : kwargs xr) o f k q m fq : make w id c p kw = Ok o ->
    In (f, k) (documented_fields c) -> k <> Number -> f <> "theta"%string ->
    dict_get f kw = Some (CQty q) -> genuine (q_unit q) ->
    q_mag q = Fin m -> u_factor (q_unit q) = Fin fq -> fq <> 0 ->
    exists q' x m', get_with_units o (view_of f) = Ok q' /\
      x * kind_factor c k = m * fq /\
      quantity_to q' (q_unit q) = Some (Fin m') /\ m' * fq = rd x * kind_factor c k.
  Proof.
    intros H I Nk Nt Gq Ge Hm Hf Nf.
    pose proof (make_inv _ _ _ _ _ _ H) as (L & _ & Ec & _).
    destruct (make_quantity _ _ _ _ _ _ _ _ _ _ _ H I Nk Gq Ge Hm Hf) as (D & x & Ga & Ex).
    destruct (view_unit c p f k L I Nk Nt) as (u & Eu & Gu).
    destruct (kind_unit_dim _ _ _ Eu) as [Du Iu]. destruct (kind_unit_factor _ _ _ Eu) as [Fu Nz].
    unfold get_with_units. rewrite Ec, Gu, Ga. cbn [bind].
    eexists _, x. 
    destruct (conv_ok {| q_mag := Fin (rd x); q_unit := u |} (q_unit q) (rd x) (kind_factor c k) fq) as (y & Q & Ey);
      cbn [q_mag q_unit]; auto; [congruence| |].
    { intros Et. pose proof (Ge u Iu (eq_sym Et)) as Eq. rewrite Eq in Hf. congruence. }
    exists y. repeat split; eauto.
  Qed.
End Q.

(** ** Attribute setters *)
Section Set_.
  Context {T : Type} {N : Num T}.
  Lemma list_set_ok (l : list T) : forall i v, (i < length l)%nat -> exists l', list_set l i v = Ok l' /\ length l' = length l /\
    forall j, nth_error l' j = if Nat.eqb j i then Some v else nth_error l j.
  Proof.
    induction l as [|a l IH]; intros i v H; cbn in H; [lia|]. destruct i as [|i]; cbn [list_set].
    - exists (v :: l). repeat split. intros [|j]; reflexivity.
    - destruct (IH i v) as (l' & -> & L & Q); [lia|]. cbn [bind]. exists (a :: l'). split; [reflexivity|]. split; [cbn; lia|].
      intros [|j]; cbn; auto.
  Qed.

  Lemma setattr_ok (o : obj T) name i b v l : dict_get name (settable (o_cls o)) = Some i ->
    e_state (o_ent o) = A1 l -> (i < length l)%nat ->
    exists o', setattr o name b v = Ok o' /\ o_cls o' = o_cls o /\ o_id o' = o_id o /\
      (forall j, aidx (e_state (o_ent o')) j = if Nat.eqb j i then Ok (if b then nf32 v else v) else aidx (e_state (o_ent o)) j).
  Proof.
    intros G E L. unfold setattr, set_elem. rewrite G, E. cbn [arr_set].
    destruct (list_set_ok l i (if b then nf32 v else v) L) as (l' & -> & _ & Q). cbn [bind].
    eexists. split; [reflexivity|]. repeat split. intros j. cbn [o_ent set_state with_step e_state aidx]. rewrite Q.
    destruct (Nat.eqb j i); reflexivity.
  Qed.

  (** Aircraft attributes that can be set, with the attribute that mirrors them. *)
  Lemma set_get (o : obj T) name i b v l g : leaf (lib (o_cls o)) = true -> dict_get name (settable (o_cls o)) = Some i ->
    e_state (o_ent o) = A1 l -> (i < length l)%nat ->
    exists o', setattr o name b v = Ok o' /\ o_cls o' = o_cls o /\
      getattr o' name = Ok (if b then nf32 v else v) /\
      (dict_get g (accessors (o_cls o)) <> Some (Elem i) -> getattr o' g = getattr o g).
  Proof.
    intros Lf G E L. destruct (setattr_ok o name i b v l G E L) as (o' & S & C & _ & Q).
    exists o'. split; auto. split; auto.
    assert (Hs : lib (o_cls o) = Dubins2dAircraftC \/ lib (o_cls o) = Dubins3dAircraftC).
    { unfold settable in G. destruct (lib (o_cls o)); try discriminate; auto. }
    split.
    - unfold getattr. rewrite C.
      assert (dict_get name (accessors (o_cls o)) = Some (Elem i)) as ->.
      { unfold settable, accessors in *. destruct Hs as [Hs|Hs]; rewrite Hs in *; cbn [dict_get] in G;
          repeat match type of G with context [String.eqb name ?s] => destruct (String.eqb_spec name s); [subst; injection G as <-; reflexivity|] end; discriminate. }
      cbn [read_accessor]. rewrite Q, Nat.eqb_refl. reflexivity.
    - intros Ne. unfold getattr. rewrite C. destruct (dict_get g (accessors (o_cls o))) as [[j| |j|]|] eqn:Eg; auto.
      + cbn [read_accessor]. rewrite Q. destruct (Nat.eqb_spec j i); auto. subst. congruence.
      + exfalso. unfold accessors in Eg. destruct Hs as [Hs|Hs]; rewrite Hs in *; cbn [dict_get] in Eg;
          repeat match type of Eg with context [String.eqb g ?s] => destruct (String.eqb_spec g s); [discriminate|] end; discriminate.
  Qed.
  Lemma set_readonly (o : obj T) name b v : dict_get name (settable (o_cls o)) = None -> setattr o name b v = Err AttributeError.
  Proof. intros H. unfold setattr. rewrite H. reflexivity. Qed.
End Set_.
