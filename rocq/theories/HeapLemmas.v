(** The heap model refines the value model. *)
From Coq Require Import String List Bool Arith ZArith Lia.
From Verif Require Import PyBase Num Arr BaseModel Cwh Heap SpecHeap.
Import ListNotations.

Section HL.
  Context {T : Type} {N : Num T}.

  Lemma read_alloc_old (H : heap T) v p : p < length H -> hread (H ++ [v]) p = hread H p.
  Proof. intros L. unfold hread. apply app_nth1, L. Qed.
  Lemma read_alloc_new (H : heap T) v : hread (H ++ [v]) (length H) = v.
  Proof. unfold hread. rewrite app_nth2, Nat.sub_diag; auto. Qed.
  Lemma hwrite_length (H : heap T) p v : length (hwrite H p v) = length H.
  Proof. revert p. induction H as [|c H IH]; intros [|p]; simpl; auto. Qed.
  Lemma read_write_same (H : heap T) p v : p < length H -> hread (hwrite H p v) p = v.
  Proof.
    unfold hread. revert p. induction H as [|c H IH]; intros [|p] L; simpl in *; try lia; auto.
    apply IH. lia.
  Qed.
  Lemma read_write_other (H : heap T) p q v : p <> q -> hread (hwrite H p v) q = hread H q.
  Proof.
    unfold hread. revert p q. induction H as [|c H IH]; intros [|p] [|q] L; simpl in *; try congruence; auto.
  Qed.

  Local Arguments hread : simpl never.
  Local Arguments hwrite : simpl never.

  (** The entity's references and the caller's references are valid and disjoint. *)
  Record hinv (H : heap T) (E : hent T) (env : list loc) : Prop := {
    iv_def : he_default E < length H;
    iv_st : he_state E < length H;
    iv_sd : he_sdot E < length H;
    iv_ds : he_default E <> he_state E;
    iv_sds : he_sdot E <> he_state E;
    iv_dsd : he_default E <> he_sdot E;
    iv_env : forall k p, nth_error env k = Some p ->
      p < length H /\ p <> he_default E /\ p <> he_state E /\ p <> he_sdot E;
    iv_nd : NoDup env }.

  Definition sim (H : heap T) (E : hent T) (env : list loc) (e : entity T) (store : list (arr T)) : Prop :=
    hinv H E env /\ view H E = e /\ map (hread H) env = store.

  (** Heaps that extend another heap. *)
  Definition ext (H H' : heap T) : Prop :=
    length H <= length H' /\ forall p, p < length H -> hread H' p = hread H p.
  Lemma ext_refl H : ext H H.
  Proof. split; auto. Qed.
  Lemma ext_alloc H v : ext H (H ++ [v]).
  Proof. split; [rewrite app_length; simpl; lia|]. intros p L. apply read_alloc_old, L. Qed.
  Lemma ext_trans H1 H2 H3 : ext H1 H2 -> ext H2 H3 -> ext H1 H3.
  Proof.
    intros [L1 R1] [L2 R2]. split; [lia|]. intros p L. rewrite R2 by lia. apply R1, L.
  Qed.
  Lemma ext_write_new H H' p v : ext H H' -> length H <= p -> ext H (hwrite H' p v).
  Proof.
    intros [L R] P. split; [rewrite hwrite_length; exact L|]. intros q Q.
    rewrite read_write_other by lia. apply R, Q.
  Qed.

  Lemma hinv_ext H H' E env : hinv H E env -> ext H H' -> hinv H' E env.
  Proof.
    intros [] [L R]. constructor; auto; try lia.
    intros k p Q. destruct (iv_env0 k p Q) as (A & B). split; [lia|exact B].
  Qed.
  Lemma view_ext H H' E env : hinv H E env -> ext H H' -> view H' E = view H E.
  Proof.
    intros [] [L R]. unfold view. rewrite !R by assumption. reflexivity.
  Qed.
  Lemma env_ext H H' E env : hinv H E env -> ext H H' -> map (hread H') env = map (hread H) env.
  Proof.
    intros [] [L R]. apply map_ext_in. intros p Q.
    destruct (In_nth_error _ _ Q) as [k K]. apply R. apply (iv_env0 k p K).
  Qed.
  Lemma sim_ext H H' E env e store : sim H E env e store -> ext H H' -> sim H' E env e store.
  Proof.
    intros (I & V & S) X. split; [eapply hinv_ext; eassumption|].
    split; [rewrite (view_ext _ _ _ _ I X); exact V|rewrite (env_ext _ _ _ _ I X); exact S].
  Qed.

  (** The entity moves to freshly allocated arrays. *)
  Lemma sim_move H H' E env ps pd tr e store s sd :
    sim H E env e store -> ext H H' ->
    (length H <= ps < length H') ->
    (length H <= pd < length H' /\ pd <> ps \/ pd = he_sdot E) ->
    hread H' ps = s -> hread H' pd = sd ->
    sim H' (hwith E ps pd tr) env
        {| e_dyn := e_dyn e; e_default := e_default e; e_cmin := e_cmin e; e_cmax := e_cmax e;
           e_cmap := e_cmap e; e_state := s; e_sdot := sd; e_traj := tr |} store.
  Proof.
    intros (I & V & S) X P D Rs Rd. pose proof (env_ext _ _ _ _ I X) as EE.
    destruct I, X as [L R]. split.
    - constructor; cbn; auto; try lia.
      intros k p Q. destruct (iv_env0 k p Q) as (A & B & C & F). repeat split; lia.
    - split; [|congruence]. subst e. unfold view. cbn. rewrite Rs, Rd, (R _ iv_def0). reflexivity.
  Qed.

  (** Building the control array leaves everything else alone. *)
  Lemma happly_items_ok (H0 : heap T) (m : list (string * nat)) p : forall items H,
    ext H0 H -> length H0 <= p < length H ->
    let r := happly_items H m items p in
    ext H0 (fst r) /\ length (fst r) = length H /\
    match apply_items m items (hread H p) with
    | Ok c => snd r = Ok tt /\ hread (fst r) p = c
    | Err x => snd r = Err x
    end.
  Proof.
    induction items as [|[name v] items IH]; intros H X P; cbn.
    - auto.
    - destruct (dict_get name m) as [i|]; cbn; [|auto].
      destruct (arr_set (hread H p) i v) as [c|]; cbn; [|auto].
      specialize (IH (hwrite H p c) (ext_write_new _ _ _ _ X (proj1 P))).
      rewrite hwrite_length, read_write_same in IH by lia. apply (IH P).
  Qed.

  Definition conv (H : heap T) (a : haction T) : option (action T) :=
    match a with
    | HNone => Some ANone
    | HDict items => Some (ADict items)
    | HList p => match hread H p with A1 l => Some (AList l) | A0 _ => None end
    | HArr p => Some (AArr (hread H p))
    | HOther => Some AOther
    end.

  Lemma hdecode_ok (w : world T) H E env a a' : hinv H E env -> conv H a = Some a' ->
    let r := hdecode H E a in
    ext H (fst r) /\
    match decode_action w (view H E) a' with
    | Ok c => exists p, snd r = Ok p /\ length H <= p < length (fst r) /\ hread (fst r) p = c
    | Err x => snd r = Err x
    end.
  Proof.
    intros I C. destruct a as [|items|q|q|]; cbn in C.
    - injection C as <-. cbn. split; [apply ext_alloc|]. exists (length H).
      rewrite read_alloc_new, app_length. cbn. repeat split; lia.
    - injection C as <-. cbn. destruct (he_cmap E) as [m|]; cbn; [|split; [apply ext_refl|reflexivity]].
      destruct (happly_items_ok H m (length H) items (H ++ [hread H (he_default E)])) as (A & B & D).
      { apply ext_alloc. } { rewrite app_length; cbn; lia. }
      rewrite read_alloc_new in D.
      destruct (happly_items _ _ _ _) as [H' r]. cbn in *. split; [exact A|].
      destruct (apply_items m items (hread H (he_default E))) as [c|x].
      + destruct D as [-> D]. exists (length H). rewrite B, app_length. cbn. repeat split; auto; lia.
      + rewrite D. reflexivity.
    - destruct (hread H q) as [|l] eqn:Q; [discriminate|]. injection C as <-. cbn.
      split; [apply ext_alloc|]. exists (length H). rewrite read_alloc_new, app_length, Q. cbn. repeat split; lia.
    - injection C as <-. cbn. split; [apply ext_alloc|]. exists (length H).
      rewrite read_alloc_new, app_length. cbn. repeat split; lia.
    - injection C as <-. cbn. split; [apply ext_refl|reflexivity].
  Qed.

  Lemma hstep_ok (w : world T) H E env e store h a a' :
    sim H E env e store -> conv H a = Some a' ->
    let '(H', E', wn, r) := hstep w H E h a in
    let o := entity_step w e h a' in
    sim H' E' env (o_entity o) store /\ wn = o_warned o /\ r = o_res o.
  Proof.
    intros S C. pose proof S as (I & V & ES).
    pose proof (hdecode_ok w H E env a a' I C) as (X & D). rewrite V in D.
    unfold hstep, entity_step.
    destruct (hdecode H E a) as [H1 r1]. cbn [fst snd] in *.
    destruct (decode_action w e a') as [c|x].
    2:{ subst r1. cbn. split; [eapply sim_ext; eassumption|auto]. }
    destruct D as (p & -> & P & Rp). rewrite Rp.
    assert (Ecm : he_cmin E = e_cmin e /\ he_cmax E = e_cmax e /\ he_dyn E = e_dyn e /\ he_traj E = e_traj e)
      by (subst e; auto). destruct Ecm as (-> & -> & -> & Et).
    destruct (out_of_bounds c (e_cmin e) (e_cmax e)) as [wn|x]; cbn [o_entity o_warned o_res].
    2:{ split; [eapply sim_ext; eassumption|auto]. }
    destruct (np_clip c (e_cmin e) (e_cmax e)) as [c'|x]; cbn [o_entity o_warned o_res].
    2:{ split; [eapply sim_ext; eassumption|auto]. }
    unfold halloc. rewrite read_alloc_new.
    rewrite (read_alloc_old (H1 ++ [c'])) by (rewrite app_length; simpl; lia). rewrite read_alloc_new.
    assert (X3 : ext H ((H1 ++ [c']) ++ [hread (H1 ++ [c']) (he_state E)])).
    { eapply ext_trans; [exact X|]. eapply ext_trans; apply ext_alloc. }
    assert (Rs : hread (H1 ++ [c']) (he_state E) = e_state e).
    { assert (X2 : ext H (H1 ++ [c'])) by (eapply ext_trans; [exact X|apply ext_alloc]).
      rewrite (proj2 X2) by apply (iv_st _ _ _ I). subst e. reflexivity. }
    rewrite Rs in *. rewrite Et.
    set (H3 := (H1 ++ [c']) ++ [e_state e]) in *.
    destruct (dyn_step w (e_dyn e) (e_traj e) h (e_state e) c') as [tr [[s' sd]|x]]; cbn [o_entity o_warned o_res].
    - split; [|auto]. rewrite !read_alloc_old by (rewrite ?app_length; simpl; lia). rewrite read_alloc_new.
      unfold with_step.
      set (L := length H3) in *.
      assert (LH : length H <= L) by apply (proj1 X3).
      apply (sim_move H); auto.
      + eapply ext_trans; [exact X3|]. do 2 (eapply ext_trans; [apply ext_alloc|]). apply ext_alloc.
      + rewrite !app_length. simpl. lia.
      + left. rewrite !app_length. simpl. lia.
      + rewrite read_alloc_new. reflexivity.
      + rewrite read_alloc_old by (rewrite !app_length; simpl; lia). apply read_alloc_new.
    - split; [|auto].
      destruct (sim_ext _ _ _ _ _ _ S X3) as (I' & V' & S'). split; [|split].
      + destruct I'. constructor; cbn; auto.
      + unfold view in *. cbn. subst e. unfold with_traj. cbn. injection V' as A B D0. rewrite A, B, D0. reflexivity.
      + exact S'.
  Qed.

  Lemma map_upd {A B} (f : A -> B) l k v : map f (upd l k v) = upd (map f l) k (f v).
  Proof. revert k. induction l as [|a l IH]; intros [|k]; cbn; auto. f_equal. apply IH. Qed.

  Lemma env_write (H : heap T) env k p v : NoDup env -> nth_error env k = Some p -> p < length H ->
    map (hread (hwrite H p v)) env = upd (map (hread H) env) k v.
  Proof.
    intros ND K P. revert k K. induction ND as [|q env Nq ND IH]; intros [|k] K; cbn in *; try discriminate.
    - injection K as ->. rewrite read_write_same by exact P. f_equal.
      apply map_ext_in. intros q Q. apply read_write_other. intros ->. contradiction.
    - rewrite (IH k K). f_equal. apply read_write_other. intros ->.
      apply Nq. exact (nth_error_In _ _ K).
  Qed.

  Lemma sim_push H E env e store v : sim H E env e store ->
    sim (H ++ [v]) E (env ++ [length H]) e (store ++ [v]).
  Proof.
    intros S. destruct (sim_ext _ _ _ _ _ _ S (ext_alloc H v)) as (I' & V' & S').
    pose proof S as (I & V & ES). split; [|split; [exact V'|]].
    - destruct I, I'. constructor; auto.
      + intros k p Q. destruct (Nat.lt_ge_cases k (length env)) as [L|L].
        * rewrite nth_error_app1 in Q by exact L. apply (iv_env1 k p Q).
        * rewrite nth_error_app2 in Q by exact L. destruct (k - length env); cbn in Q; [|destruct n; discriminate].
          injection Q as <-. rewrite app_length. cbn. lia.
      + apply NoDup_rev in iv_nd0. rewrite <- (rev_involutive (env ++ _)). apply NoDup_rev.
        rewrite rev_app_distr. cbn. constructor; [|exact iv_nd0].
        rewrite <- in_rev. intros Q. destruct (In_nth_error _ _ Q) as [k K].
        destruct (iv_env0 k _ K). lia.
    - rewrite map_app. cbn. rewrite read_alloc_new. congruence.
  Qed.

  Lemma nth_store (H : heap T) env k : nth_error (map (hread H) env) k = option_map (hread H) (nth_error env k).
  Proof. revert k. induction env; intros [|k]; cbn; auto. Qed.

  Lemma hexec_ok (w : world T) H E env e store o :
    sim H E env e store ->
    let '(H', E', env', x) := hexec w H E env o in
    let '(e', store', y) := vexec w e store o in
    sim H' E' env' e' store' /\ x = y.
  Proof.
    intros S. pose proof S as (I & V & ES).
    destruct o as [v|k i x|  |i j|k|i x|h a]; cbn.
    - split; [apply sim_push, S|reflexivity].
    - rewrite <- ES, nth_store. destruct (nth_error env k) as [p|] eqn:K; cbn; [|rewrite ES; auto].
      destruct (arr_set (hread H p) i x) as [a'|]; [|rewrite ES; auto].
      destruct (iv_env _ _ _ I k p K) as (P & P1 & P2 & P3).
      split; [|reflexivity]. split; [|split].
      + destruct I. constructor; rewrite ?hwrite_length; auto.
      + unfold view in *. rewrite !read_write_other by congruence. exact V.
      + apply env_write; auto. apply (iv_nd _ _ _ I).
    - split; [|reflexivity]. subst e. apply sim_push, S.
    - unfold hslice. subst e. cbn. destruct (aslice (hread H (he_state E)) i j) as [v|]; cbn; [|auto].
      split; [apply sim_push, S|reflexivity].
    - rewrite <- ES, nth_store. destruct (nth_error env k) as [p|] eqn:K; cbn; [|rewrite ES; auto].
      destruct (iv_env _ _ _ I k p K) as (P & _).
      split; [|reflexivity].
      assert (Q : sim (H ++ [hread H p]) (hwith E (length H) (he_sdot E) (he_traj E)) env
        {| e_dyn := e_dyn e; e_default := e_default e; e_cmin := e_cmin e; e_cmax := e_cmax e;
           e_cmap := e_cmap e; e_state := hread H p; e_sdot := hread H (he_sdot E); e_traj := he_traj E |} store).
      { apply (sim_move H); [exact S|apply ext_alloc|rewrite app_length; cbn; lia|right; reflexivity
          |apply read_alloc_new|apply read_alloc_old, (iv_sd _ _ _ I)]. }
      rewrite ES. unfold set_state, with_step. subst e. exact Q.
    - unfold hset_elem. subst e. cbn. destruct (arr_set (hread H (he_state E)) i x) as [s|]; cbn; [|auto].
      split; [|reflexivity]. split; [|split].
      + destruct I. constructor; rewrite ?hwrite_length; auto.
      + unfold view, set_state, with_step. cbn.
        rewrite read_write_same by apply (iv_st _ _ _ I).
        rewrite !read_write_other by (pose proof (iv_ds _ _ _ I); pose proof (iv_sds _ _ _ I); congruence).
        reflexivity.
      + rewrite <- ES. apply map_ext_in. intros p Q. destruct (In_nth_error _ _ Q) as [k K].
        apply read_write_other. destruct (iv_env _ _ _ I k p K) as (_ & _ & A & _). congruence.
    - assert (A : match hact H env a with
                  | Some ha => exists va, vact store a = Some va /\ conv H ha = Some va
                  | None => vact store a = None
                  end).
      { destruct a as [|items|k|k|]; cbn; eauto.
        - rewrite <- ES, nth_store. destruct (nth_error env k) as [p|]; cbn; [|reflexivity].
          destruct (hread H p) as [|l] eqn:Q; [reflexivity|]. cbn. rewrite Q. eauto.
        - rewrite <- ES, nth_store. destruct (nth_error env k) as [p|]; cbn; eauto. }
      destruct (hact H env a) as [ha|].
      + destruct A as (va & -> & C). pose proof (hstep_ok w H E env e store h ha va S C) as Q.
        destruct (hstep w H E h ha) as [[[H' E'] wn] r]. destruct Q as (Q & -> & ->). auto.
      + rewrite A. auto.
  Qed.

  Lemma hexec_all_ok (w : world T) l : forall H E env e store,
    sim H E env e store ->
    let '(H', E', env', x) := hexec_all w H E env l in
    let '(e', store', y) := vexec_all w e store l in
    sim H' E' env' e' store' /\ x = y.
  Proof.
    induction l as [|o l IH]; intros H E env e store S; cbn; [auto|].
    pose proof (hexec_ok w H E env e store o S) as Q.
    destruct (hexec w H E env o) as [[[H1 E1] env1] x1]. destruct (vexec w e store o) as [[e1 store1] y1].
    destruct Q as [Q ->]. pose proof (IH _ _ _ _ _ Q) as R.
    destruct (hexec_all w H1 E1 env1 l) as [[[H2 E2] env2] x2].
    destruct (vexec_all w e1 store1 l) as [[e2 store2] y2].
    destruct R as [R ->]. auto.
  Qed.

  Lemma value_semantics (w : world T) H0 d cdef cmin cmax cmap s0 l :
    let '(H, E) := hmk H0 d cdef cmin cmax cmap s0 in
    let '(H', E', env, outs) := hexec_all w H E [] l in
    let '(e', store, vouts) := vexec_all w (mk_entity d cdef cmin cmax cmap s0) [] l in
    view H' E' = e' /\ map (hread H') env = store /\ outs = vouts.
  Proof.
    destruct (hmk H0 d cdef cmin cmax cmap s0) as [H E] eqn:M.
    assert (S : sim H E [] (mk_entity d cdef cmin cmax cmap s0) []).
    { unfold hmk, halloc in M. injection M as <- <-. rewrite !app_length. cbn. split; [|split; [|reflexivity]].
      - constructor; cbn; rewrite ?app_length; cbn; try lia; try apply NoDup_nil.
        intros k q Q; destruct k; discriminate.
      - unfold view, mk_entity, hread. cbn. rewrite <- !app_assoc. cbn.
        rewrite !app_nth2 by lia.
        replace (length H0 - length H0) with 0 by lia. replace (length H0 + 1 - length H0) with 1 by lia.
        replace (length H0 + 1 + 1 - length H0) with 2 by lia. reflexivity. }
    pose proof (hexec_all_ok w l _ _ _ _ _ S) as Q.
    destruct (hexec_all w H E [] l) as [[[H' E'] env] x]. destruct (vexec_all _ _ _ l) as [[e' store] y].
    destruct Q as ((_ & V & ES) & X). auto.
  Qed.
End HL.
