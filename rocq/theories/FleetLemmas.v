(** Several entities in one heap. *)
From Coq Require Import String List Bool Arith ZArith Lia Permutation.
From Verif Require Import PyBase Num Arr BaseModel Cwh Heap SpecHeap HeapLemmas SpecFleet.
Import ListNotations.

Section FL.
  Context {T : Type} {N : Num T}.

  Definition locs (E : hent T) : list loc := [he_default E; he_state E; he_sdot E].
  Definition fresh_locs (H : heap T) (l : list loc) : Prop := NoDup l /\ Forall (fun p => p < length H) l.

  Lemma hinv_locs H E env : hinv H E env <-> fresh_locs H (locs E ++ env).
  Proof.
    split.
    - intros []. split.
      + assert (D : forall p, In p env -> p <> he_default E /\ p <> he_state E /\ p <> he_sdot E).
        { intros p Ip. destruct (In_nth_error _ _ Ip) as [k K]. apply (iv_env k p K). }
        cbn. constructor; [|constructor; [|constructor; [|exact iv_nd]]]; cbn.
        * intros [X|[X|X]]; try congruence. apply D in X. tauto.
        * intros [X|X]; try congruence. apply D in X. tauto.
        * intros X. apply D in X. tauto.
      + apply Forall_app. split; [repeat constructor; assumption|]. apply Forall_forall. intros p Ip.
        destruct (In_nth_error _ _ Ip) as [k K]. apply (iv_env k p K).
    - intros [ND F]. apply Forall_app in F. destruct F as [F1 F2].
      inversion F1 as [|? ? A1 F1']; subst. inversion F1' as [|? ? A2 F1'']; subst. inversion F1'' as [|? ? A3 _]; subst.
      cbn in ND. inversion ND as [|? ? N1 ND1]; subst. inversion ND1 as [|? ? N2 ND2]; subst. inversion ND2 as [|? ? N3 ND3]; subst.
      cbn in *. constructor; auto; try (intros X; intuition congruence).
      intros k p K. apply nth_error_In in K. rewrite Forall_forall in F2. split; [auto|].
      repeat split; intros ->; intuition.
  Qed.
  Lemma fresh_perm H l m : Permutation l m -> fresh_locs H l -> fresh_locs H m.
  Proof. intros P [A B]. split; [eapply Permutation_NoDup; eassumption|eapply Permutation_Forall; eassumption]. Qed.

  (** Operations with the handles moved up by [n]. *)
  Definition shift_act (n : nat) (a : @cact T) : @cact T :=
    match a with CList k => CList (n + k) | CArr k => CArr (n + k) | _ => a end.
  Definition shift_op (n : nat) (o : cop T) : cop T :=
    match o with
    | CMut k i x => CMut (n + k) i x
    | CSet k => CSet (n + k)
    | CStep h a => CStep h (shift_act n a)
    | _ => o
    end.
  Lemma nth_shift {A} (l m : list A) k : nth_error (l ++ m) (length l + k) = nth_error m k.
  Proof. rewrite nth_error_app2 by lia. f_equal. lia. Qed.
  Lemma upd_shift {A} (l m : list A) k v : upd (l ++ m) (length l + k) v = l ++ upd m k v.
  Proof. induction l; cbn; [reflexivity|]. f_equal. exact IHl. Qed.
  Lemma hexec_shift (w : world T) H E l env o : hexec w H E (l ++ env) (shift_op (length l) o)
    = let '(H', E', env', x) := hexec w H E env o in (H', E', l ++ env', x).
  Proof.
    destruct o as [v|k i x| |i j|k|i x|h a]; cbn; rewrite ?nth_shift; rewrite ?app_assoc; try reflexivity.
    - destruct (nth_error env k); [|reflexivity]. destruct (arr_set _ i x); reflexivity.
    - destruct (hslice H E i j) as [H1 [p|]]; rewrite ?app_assoc; reflexivity.
    - destruct (nth_error env k); [|reflexivity]. destruct (hset H E l0); reflexivity.
    - destruct (hset_elem H E i x) as [H1 r]. reflexivity.
    - assert (X : hact H (l ++ env) (shift_act (length l) a) = hact H env a).
      { destruct a; cbn; rewrite ?nth_shift; reflexivity. }
      rewrite X. destruct (hact H env a) as [ha|]; [|reflexivity].
      destruct (hstep w H E h ha) as [[[H1 E1] wn] r]. reflexivity.
  Qed.
  Lemma vexec_shift (w : world T) e l store o : vexec w e (l ++ store) (shift_op (length l) o)
    = let '(e', store', x) := vexec w e store o in (e', l ++ store', x).
  Proof.
    destruct o as [v|k i x| |i j|k|i x|h a]; cbn; rewrite ?nth_shift; rewrite ?app_assoc; try reflexivity.
    - destruct (nth_error store k); [|reflexivity]. destruct (arr_set _ i x); [|reflexivity]. rewrite upd_shift. reflexivity.
    - destruct (aslice (e_state e) i j) as [v|]; rewrite ?app_assoc; reflexivity.
    - destruct (nth_error store k); reflexivity.
    - destruct (arr_set (e_state e) i x); reflexivity.
    - assert (X : vact (l ++ store) (shift_act (length l) a) = vact store a).
      { destruct a; cbn; rewrite ?nth_shift; reflexivity. }
      rewrite X. destruct (vact store a) as [ha|]; reflexivity.
  Qed.

  (** The fleet and the values correspond. *)
  Definition fsim (H : heap T) (Es : list (hent T)) (env : list loc) (es : list (entity T)) (store : list (arr T)) : Prop :=
    fresh_locs H (flat_map locs Es ++ env) /\ map (view H) Es = es /\ map (hread H) env = store.

  Lemma view_of_reads H H' (E : hent T) : map (hread H') (locs E) = map (hread H) (locs E) -> view H' E = view H E.
  Proof. cbn. intros X. injection X as A B C. unfold view. rewrite A, B, C. reflexivity. Qed.
  Lemma views_of_reads H H' (Es : list (hent T)) :
    map (hread H') (flat_map locs Es) = map (hread H) (flat_map locs Es) -> map (view H') Es = map (view H) Es.
  Proof.
    induction Es as [|E Es IH]; [reflexivity|]. cbn [flat_map map]. rewrite !map_app. intros X.
    assert (L : length (map (hread H') (locs E)) = length (map (hread H) (locs E))) by reflexivity.
    pose proof (f_equal (firstn 3) X) as X1. pose proof (f_equal (skipn 3) X) as X2. cbn in X1, X2.
    f_equal; [apply view_of_reads; exact X1|apply IH; exact X2].
  Qed.
  Lemma upd_split {A} (l1 l2 : list A) x y : upd (l1 ++ x :: l2) (length l1) y = l1 ++ y :: l2.
  Proof. induction l1; cbn; [reflexivity|]. f_equal. exact IHl1. Qed.

  Lemma fop_ok (w : world T) H Es env es store i E o : fsim H Es env es store -> nth_error Es i = Some E ->
    let '(H', E', env', x) := hexec w H E env o in
    let '(e', store', y) := vexec w (view H E) store o in
    fsim H' (upd Es i E') env' (upd es i e') store' /\ x = y.
  Proof.
    intros (F & V & S) K. destruct (nth_error_split _ _ K) as (l1 & l2 & -> & <-).
    set (others := flat_map locs (l1 ++ l2)).
    assert (P : forall E0 en, Permutation (flat_map locs (l1 ++ E0 :: l2) ++ en) (locs E0 ++ others ++ en)).
    { intros E0 en. unfold others. rewrite !flat_map_app. cbn [flat_map]. rewrite !app_assoc.
      apply Permutation_app_tail. apply Permutation_app_tail. apply Permutation_app_comm. }
    assert (I : hinv H E (others ++ env)) by (apply hinv_locs; eapply fresh_perm; [apply P|exact F]).
    assert (Sm : sim H E (others ++ env) (view H E) (map (hread H) others ++ store)).
    { split; [exact I|]. split; [reflexivity|]. rewrite map_app, S. reflexivity. }
    pose proof (hexec_ok w _ _ _ _ _ (shift_op (length others) o) Sm) as Q.
    rewrite hexec_shift in Q. replace (length others) with (length (map (hread H) others)) in Q by apply map_length.
    rewrite vexec_shift in Q.
    destruct (hexec w H E env o) as [[[H' E'] env'] x]. destruct (vexec w (view H E) store o) as [[e' store'] y].
    destruct Q as ((I' & V' & S') & ->). split; [|reflexivity].
    rewrite upd_split. rewrite map_app in S'.
    assert (L : length (map (hread H') others) = length (map (hread H) others)) by (rewrite !map_length; reflexivity).
    pose proof (f_equal (firstn (length (map (hread H') others))) S') as S1.
    pose proof (f_equal (skipn (length (map (hread H') others))) S') as S2.
    rewrite firstn_app, skipn_app, Nat.sub_diag, firstn_all, skipn_all, app_nil_r in *. cbn [firstn skipn app] in S1, S2.
    rewrite L, firstn_app, Nat.sub_diag, firstn_all, app_nil_r in S1.
    rewrite L, skipn_app, Nat.sub_diag, skipn_all in S2. cbn [firstn skipn app] in S1, S2.
    assert (Vo : map (view H') (l1 ++ l2) = map (view H) (l1 ++ l2)) by (apply views_of_reads; exact S1).
    rewrite !map_app in Vo.
    assert (Lv : length (map (view H') l1) = length (map (view H) l1)) by (rewrite !map_length; reflexivity).
    pose proof (f_equal (firstn (length (map (view H') l1))) Vo) as V1.
    pose proof (f_equal (skipn (length (map (view H') l1))) Vo) as V2.
    rewrite firstn_app, skipn_app, Nat.sub_diag, firstn_all, skipn_all, app_nil_r in *. cbn [firstn skipn app] in V1, V2.
    rewrite Lv, firstn_app, Nat.sub_diag, firstn_all, app_nil_r in V1.
    rewrite Lv, skipn_app, Nat.sub_diag, skipn_all in V2. cbn [firstn skipn app] in V1, V2.
    split; [|split].
    - eapply fresh_perm; [apply Permutation_sym, P|]. apply hinv_locs. exact I'.
    - rewrite map_app. cbn [map]. rewrite V1, V2, V'. subst es. rewrite map_app. cbn [map].
      replace (length l1) with (length (map (view H) l1)) by apply map_length. rewrite upd_split. reflexivity.
    - exact S2.
  Qed.

  Lemma fmake_ok H Es env es store d cdef cmin cmax cmap s0 : fsim H Es env es store ->
    let '(H', E) := hmk H d cdef cmin cmax cmap s0 in
    fsim H' (Es ++ [E]) env (es ++ [mk_entity d cdef cmin cmax cmap s0]) store.
  Proof.
    intros ((ND & B) & V & S). unfold hmk, halloc. rewrite !app_length. cbn [length].
    set (H' := ((H ++ [cdef]) ++ [s0]) ++ [zeros_like s0]).
    assert (X : ext H H') by (eapply ext_trans; [apply ext_alloc|eapply ext_trans; apply ext_alloc]).
    assert (LH : length H' = length H + 1 + 1 + 1) by (unfold H'; rewrite !app_length; reflexivity).
    set (E := {| he_dyn := d; he_cmin := cmin; he_cmax := cmax; he_cmap := cmap; he_default := length H;
                 he_state := length H + 1; he_sdot := length H + 1 + 1; he_traj := None |}).
    rewrite Forall_forall in B.
    assert (RB : forall p, In p (flat_map locs Es ++ env) -> hread H' p = hread H p) by (intros p Ip; apply (proj2 X), B, Ip).
    split; [|split].
    - eapply fresh_perm with (l := locs E ++ flat_map locs Es ++ env).
      { rewrite flat_map_app. cbn [flat_map]. rewrite app_nil_r, !app_assoc. apply Permutation_app_tail, Permutation_app_comm. }
      split.
      + cbn. constructor; [|constructor; [|constructor; [|exact ND]]]; cbn.
        * intros [Q|[Q|Q]]; try lia. apply B in Q. lia.
        * intros [Q|Q]; try lia. apply B in Q. lia.
        * intros Q. apply B in Q. lia.
      + apply Forall_forall. cbn. intros p [<-|[<-|[<-|Q]]]; try lia. apply B in Q. lia.
    - rewrite map_app. f_equal.
      + rewrite <- V. apply views_of_reads. apply map_ext_in. intros p Ip. apply RB, in_or_app. left. exact Ip.
      + cbn [map]. f_equal. unfold view, mk_entity, E, H', hread. cbn. rewrite <- !app_assoc. cbn.
        rewrite !app_nth2 by lia.
        replace (length H - length H) with 0 by lia. replace (length H + 1 - length H) with 1 by lia.
        replace (length H + 1 + 1 - length H) with 2 by lia. reflexivity.
    - rewrite <- S. apply map_ext_in. intros p Ip. apply RB, in_or_app. right. exact Ip.
  Qed.

  Lemma hfleet_all_ok (w : world T) l : forall H Es env es store, fsim H Es env es store ->
    let '(H', Es', env', x) := hfleet_all w H Es env l in
    let '(es', store', y) := vfleet_all w es store l in
    fsim H' Es' env' es' store' /\ x = y.
  Proof.
    induction l as [|o l IH]; intros H Es env es store S; cbn [hfleet_all vfleet_all]; [auto|].
    assert (Q : let '(H', Es', env', x) := hfleet w H Es env o in
                let '(es', store', y) := vfleet w es store o in fsim H' Es' env' es' store' /\ x = y).
    { destruct o as [d cdef cmin cmax cmap s0|i o]; cbn [hfleet vfleet].
      - pose proof (fmake_ok H Es env es store d cdef cmin cmax cmap s0 S) as M.
        destruct (hmk H d cdef cmin cmax cmap s0). auto.
      - pose proof S as (_ & V & _). assert (NE : nth_error es i = option_map (view H) (nth_error Es i)) by (rewrite <- V; apply nth_error_map). rewrite NE.
        destruct (nth_error Es i) as [E|] eqn:K; cbn [option_map]; [|auto].
        pose proof (fop_ok w H Es env es store i E o S K) as M.
        destruct (hexec w H E env o) as [[[H' E'] env'] x]. destruct (vexec w (view H E) store o) as [[e' store'] y]. exact M. }
    destruct (hfleet w H Es env o) as [[[H1 Es1] env1] x1]. destruct (vfleet w es store o) as [[es1 store1] y1].
    destruct Q as [Q ->]. pose proof (IH _ _ _ _ _ Q) as R.
    destruct (hfleet_all w H1 Es1 env1 l) as [[[H2 Es2] env2] x2].
    destruct (vfleet_all w es1 store1 l) as [[es2 store2] y2].
    destruct R as [R ->]. auto.
  Qed.
  Lemma fleet_semantics (w : world T) H0 l :
    let '(H, Es, env, outs) := hfleet_all w H0 [] [] l in
    let '(es, store, vouts) := vfleet_all w [] [] l in
    map (view H) Es = es /\ map (hread H) env = store /\ outs = vouts.
  Proof.
    assert (S : fsim H0 [] [] [] []) by (split; [split; constructor|split; reflexivity]).
    pose proof (hfleet_all_ok w l _ _ _ _ _ S) as Q.
    destruct (hfleet_all w H0 [] [] l) as [[[H Es] env] x]. destruct (vfleet_all w [] [] l) as [[es store] y].
    destruct Q as ((_ & V & ES) & X). auto.
  Qed.

  Lemma nth_upd_other {A} (l : list A) i j v : i <> j -> nth_error (upd l j v) i = nth_error l i.
  Proof.
    revert i j. induction l as [|a l IH]; intros [|i] [|j] Hn; cbn; try reflexivity; try congruence. apply IH. congruence.
  Qed.
  Lemma fleet_independent (w : world T) H0 l i j o : i <> j ->
    let '(H, Es, env, _) := hfleet_all w H0 [] [] l in
    let '(H', Es', _, _) := hfleet w H Es env (FOp j o) in
    nth_error (map (view H') Es') i = nth_error (map (view H) Es) i.
  Proof.
    intros Hn. assert (S : fsim H0 [] [] [] []) by (split; [split; constructor|split; reflexivity]).
    pose proof (hfleet_all_ok w l _ _ _ _ _ S) as Q.
    destruct (hfleet_all w H0 [] [] l) as [[[H Es] env] x]. destruct (vfleet_all w [] [] l) as [[es store] y].
    destruct Q as (Q & _). cbn [hfleet]. destruct (nth_error Es j) as [E|] eqn:K; [|reflexivity].
    pose proof (fop_ok w H Es env es store j E o Q K) as M.
    destruct (hexec w H E env o) as [[[H' E'] env'] x']. destruct (vexec w (view H E) store o) as [[e' store'] y'].
    destruct M as ((_ & V' & _) & _). destruct Q as (_ & V & _). rewrite V', V. apply nth_upd_other, Hn.
  Qed.
End FL.
