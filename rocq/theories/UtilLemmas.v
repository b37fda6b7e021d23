(** Freezable objects, the safety verifier and result extraction (C64-C66, C81). *)
From Coq Require Import String List ZArith Reals Lra Lia Bool.
From Flocq Require Import Core.Core.
From Verif Require Import PyBase Num XReal XTac Aero AeroUtil SpecUtil.
Import List ListNotations.

(** * C64 *)
Section Frozen.
  Context {V : Type} (truthy : V -> bool) (vTrue : V) (cls : list string).
  Hypothesis truthy_true : truthy vTrue = true.

  Lemma get_set k k' (v : V) o :
    dict_get k (dict_set k' v o) = if String.eqb k k' then Some v else dict_get k o.
  Proof.
    induction o as [|[q w] o IH]; cbn; [destruct (String.eqb k k'); reflexivity|].
    destruct (String.eqb_spec k' q) as [->|Hq]; cbn.
    - destruct (String.eqb k q); reflexivity.
    - rewrite IH. destruct (String.eqb_spec k q) as [->|]; [|reflexivity].
      destruct (String.eqb_spec q k'); congruence.
  Qed.

  Lemma get_del k k' (o : list (string * V)) : k <> k' -> dict_get k (dict_del k' o) = dict_get k o.
  Proof.
    intros H. induction o as [|[q w] o IH]; cbn; [reflexivity|].
    destruct (String.eqb_spec k' q) as [->|Hq]; cbn.
    - destruct (String.eqb_spec k q); [congruence|reflexivity].
    - rewrite IH. reflexivity.
  Qed.

  Lemma del_shrinks k k' (o : list (string * V)) :
    dict_get k (dict_del k' o) <> None -> dict_get k o <> None.
  Proof.
    induction o as [|[q w] o IH]; cbn; [congruence|].
    destruct (String.eqb k' q); cbn.
    - destruct (String.eqb k q); congruence.
    - destruct (String.eqb k q); [congruence|exact IH].
  Qed.

  Lemma set_thawed (o : obj) k v : is_frozen truthy o = false ->
    exists o', set_attr truthy cls o k v = Ok o' /\
      forall k', dict_get k' o' = if String.eqb k' k then Some v else dict_get k' o.
  Proof.
    intros H. unfold set_attr. rewrite H. eexists. split; [reflexivity|]. intros. apply get_set.
  Qed.

  Lemma set_existing (o : obj) k v : hasattr cls o k = true ->
    exists o', set_attr truthy cls o k v = Ok o' /\
      forall k', dict_get k' o' = if String.eqb k' k then Some v else dict_get k' o.
  Proof.
    intros H. unfold set_attr. rewrite H. rewrite andb_false_r. eexists. split; [reflexivity|].
    intros. apply get_set.
  Qed.

  Lemma set_new_rejected (o : obj) k v : is_frozen truthy o = true -> hasattr cls o k = false ->
    set_attr truthy cls o k v = Err TypeError.
  Proof. intros H1 H2. unfold set_attr. rewrite H1, H2. reflexivity. Qed.

  Lemma freeze_works (o : obj) :
    exists o', freeze_attrs truthy vTrue cls o = Ok o' /\ is_frozen truthy o' = true /\
      forall k, k <> "_frozen"%string -> dict_get k o' = dict_get k o.
  Proof.
    destruct (set_existing o "_frozen" vTrue) as [o' [E H]].
    { unfold hasattr. destruct (dict_get "_frozen" o); reflexivity. }
    exists o'. split; [exact E|]. split.
    - unfold is_frozen. rewrite H. cbn. exact truthy_true.
    - intros k Hk. rewrite H. destruct (String.eqb_spec k "_frozen"); congruence.
  Qed.

  (** Operations that do not touch the flag itself. *)
  Definition leaves_flag (p : fop (V := V)) : Prop :=
    match p with
    | FSet k _ => k <> "_frozen"%string
    | FDel k => k <> "_frozen"%string
    | FFreeze => True
    end.

  Lemma has_spec (o : obj (V := V)) k : hasattr cls o k = true <->
    dict_get k o <> None \/ In k ("_frozen"%string :: cls).
  Proof.
    unfold hasattr. destruct (dict_get k o) as [v|].
    - split; [left; congruence|reflexivity].
    - rewrite existsb_exists. split.
      + intros [x [I1 E]]. right. apply String.eqb_eq in E. subst. exact I1.
      + intros [H|H]; [congruence|]. exists k. split; [exact H|apply String.eqb_refl].
  Qed.

  Lemma frozen_step (o : obj) p : is_frozen truthy o = true -> leaves_flag p ->
    let o' := fop_try truthy vTrue cls o p in
    is_frozen truthy o' = true /\
    forall k, hasattr cls o' k = true -> hasattr cls o k = true.
  Proof.
    intros F L. unfold fop_try, fop_run. destruct p as [k v|k|]; cbn in L.
    - destruct (hasattr cls o k) eqn:E.
      + destruct (set_existing o k v E) as [o' [-> G]]. split.
        * unfold is_frozen in *. rewrite G.
          destruct (String.eqb_spec "_frozen" k); [congruence|exact F].
        * intros k'. rewrite !has_spec, G. destruct (String.eqb_spec k' k) as [->|]; [|tauto].
          intros _. apply has_spec, E.
      + rewrite set_new_rejected by assumption. split; [exact F|auto].
    - unfold del_attr. destruct (dict_get k o) eqn:E; [|split; [exact F|auto]].
      split.
      + unfold is_frozen in *. rewrite get_del by congruence. exact F.
      + intros k'. rewrite !has_spec. intros [H|H]; [|tauto]. left. eapply del_shrinks. exact H.
    - destruct (freeze_works o) as [o' [-> [F' G]]]. split; [exact F'|].
      intros k. rewrite !has_spec. intros [H|H]; [|tauto].
      destruct (string_dec k "_frozen") as [->|Hk]; [right; left; reflexivity|].
      left. rewrite <- G by exact Hk. exact H.
  Qed.

  Lemma frozen_history ps : forall (o : obj), is_frozen truthy o = true -> Forall leaves_flag ps ->
    let o' := fold_left (fop_try truthy vTrue cls) ps o in
    is_frozen truthy o' = true /\
    forall k, hasattr cls o' k = true -> hasattr cls o k = true.
  Proof.
    induction ps as [|p ps IH]; intros o F L; [split; [exact F|auto]|].
    inversion_clear L as [|? ? L1 L2]. destruct (frozen_step o p F L1) as [F1 H1].
    destruct (IH _ F1 L2) as [F2 H2]. split; [exact F2|]. intros k Hk. apply H1, H2, Hk.
  Qed.
End Frozen.

Lemma thawing : exists (o : obj (V := bool)) k,
  freeze_attrs (fun b => b) true [] [] = Ok o /\ is_frozen (fun b => b) o = true /\
  hasattr [] o k = false /\
  hasattr [] (fold_left (fop_try (fun b => b) true []) [FSet "_frozen" false; FSet k true] o) k = true.
Proof. exists [("_frozen", true)]%string, "x"%string. repeat split. Qed.

Lemma thawing_del : exists (o : obj (V := bool)) k,
  freeze_attrs (fun b => b) true [] [] = Ok o /\ hasattr [] o k = false /\
  hasattr [] (fold_left (fop_try (fun b => b) true []) [FDel "_frozen"; FSet k true] o) k = true.
Proof. exists [("_frozen", true)]%string, "x"%string. repeat split. Qed.

(** * C65 *)
Section Mapm.
  Context {A B : Type}.
  Lemma mapM_ok (f : A -> res B) l :
    is_ok (mapM f l) = true <-> Forall (fun a => is_ok (f a) = true) l.
  Proof.
    induction l as [|a l IH]; [split; [constructor|reflexivity]|].
    cbn [mapM]. split.
    - intros H. destruct (f a) eqn:E; [|discriminate]. cbn [bind] in H.
      destruct (mapM f l) eqn:El; [|discriminate]. constructor; [rewrite E; reflexivity|].
      apply IH. reflexivity.
    - intros H. inversion_clear H as [|? ? H1 H2]. destruct (f a); [|discriminate].
      apply IH in H2. destruct (mapM f l); [reflexivity|discriminate].
  Qed.
  Lemma mapM_err (f : A -> res B) l e : (forall a x, In a l -> f a = Err x -> x = e) ->
    forall x, mapM f l = Err x -> x = e.
  Proof.
    induction l as [|a l IH]; intros H x E; [discriminate|]. cbn [mapM] in E.
    destruct (f a) eqn:Ea.
    - cbn [bind] in E. destruct (mapM f l) eqn:El; [discriminate|].
      injection E as <-. apply IH; [|reflexivity]. intros b y I1 Eb. apply (H b y); [right; exact I1|exact Eb].
    - cbn in E. injection E as <-. apply (H a e0); [left; reflexivity|exact Ea].
  Qed.
  Lemma mapM_map (f : A -> res B) g l : (forall a, In a l -> f a = Ok (g a)) -> mapM f l = Ok (map g l).
  Proof.
    induction l as [|a l IH]; intros H; [reflexivity|]. cbn [mapM map].
    rewrite (H a) by (left; reflexivity). cbn [bind].
    rewrite IH; [reflexivity|]. intros b I1. apply H. right. exact I1.
  Qed.
End Mapm.

Lemma py_index_nth {A} (l : list A) i d : i < length l -> py_index l (Z.of_nat i) = Ok (nth i l d).
Proof.
  intros H. unfold py_index. destruct (Z.ltb_spec (Z.of_nat i) 0); [lia|].
  destruct (Z.leb_spec 0 (Z.of_nat i)); [|lia].
  destruct (Z.ltb_spec (Z.of_nat i) (Z.of_nat (length l))); [|lia]. cbn.
  rewrite Nat2Z.id. rewrite (nth_error_nth' l d) by exact H. reflexivity.
Qed.

Lemma py_index_out {A} (l : list A) i : length l <= i -> py_index l (Z.of_nat i) = Err IndexError.
Proof.
  intros H. unfold py_index. destruct (Z.ltb_spec (Z.of_nat i) 0); [lia|].
  destruct (Z.ltb_spec (Z.of_nat i) (Z.of_nat (length l))); [lia|].
  rewrite andb_false_r. reflexivity.
Qed.

Lemma concat_size {A} (rows : list (list A)) w : Forall (fun r => length r = w) rows ->
  length (concat rows) = length rows * w.
Proof.
  induction 1 as [|r rows H1 H2 IH]; [reflexivity|]. cbn. rewrite app_length, IH, H1. reflexivity.
Qed.

Section Verify.
  Local Open Scope R_scope.
  Local Hint Extern 0 (Num xr) => exact (XR Fin) : typeclass_instances.

  Definition fin2 (p : R * R) : xr * xr := (Fin (fst p), Fin (snd p)).
  Definition limits_of (l : flight_limits) : limits xr :=
    mk_limits (option_map fin2 (m_altitude l)) (option_map fin2 (m_Nz l))
      (option_map fin2 (m_speed l)) (option_map fin2 (m_alpha l))
      (option_map Fin (m_ps l)) (option_map Fin (m_beta l)).

  Lemma check_range_fin l x :
    (is_ok (check_range (option_map fin2 l) (Fin x : xr)) = true <-> between l x) /\
    forall e, check_range (option_map fin2 l) (Fin x : xr) = Err e -> e = AssertionError.
  Proof.
    destruct l as [[lo hi]|]; cbn; [|split; [tauto|discriminate]]. unfold py_assert.
    destruct (Rle_bool_spec lo x), (Rle_bool_spec x hi); cbn; (split; [split; intros; try reflexivity; try discriminate; lra|congruence]).
  Qed.
  Lemma check_max_fin l x :
    (is_ok (check_max (option_map Fin l) (Fin x : xr)) = true <-> at_most l x) /\
    forall e, check_max (option_map Fin l) (Fin x : xr) = Err e -> e = AssertionError.
  Proof.
    destruct l as [hi|]; cbn; [|split; [tauto|discriminate]]. unfold py_assert.
    destruct (Rle_bool_spec x hi); cbn; (split; [split; intros; try reflexivity; try discriminate; lra|congruence]).
  Qed.

  Lemma verify_tick_fin lim rows nzs pss i :
    (i < length rows)%nat -> (i < length nzs)%nat -> (i < length pss)%nat ->
    length (nth i rows []) = 16%nat ->
    let v := verify_tick (limits_of lim) (map (map Fin) rows) (map Fin nzs) (map Fin pss) (Z.of_nat i) in
    (is_ok v = true <-> checked_tick lim (nth i rows []) (nth i nzs 0) (nth i pss 0)) /\
    (forall e, v = Err e -> e = AssertionError).
  Proof.
    intros H1 H2 H3 L. cbv zeta. unfold verify_tick.
    rewrite (py_index_nth _ i (map Fin []) ltac:(rewrite map_length; exact H1)).
    rewrite (py_index_nth _ i (Fin 0) ltac:(rewrite map_length; exact H2)).
    rewrite (py_index_nth _ i (Fin 0) ltac:(rewrite map_length; exact H3)).
    rewrite !map_nth. cbn [bind]. rewrite map_length, L. cbn [Nat.eqb negb].
    set (row := nth i rows []) in *.
    assert (G : forall j, (j < 16)%nat -> nth j (map Fin row) (n0 : xr) = Fin (nth j row 0)).
    { intros j Hj. rewrite (nth_indep _ _ (Fin 0)) by (rewrite map_length; lia). apply map_nth. }
    rewrite !G by lia. unfold checked_tick. cbn [l_altitude l_Nz l_alpha l_ps l_beta limits_of].
    destruct (check_range_fin (m_altitude lim) (nth 11 row 0)) as [A1 B1].
    destruct (check_range_fin (m_Nz lim) (nth i nzs 0)) as [A2 B2].
    destruct (check_range_fin (m_alpha lim) (nth 1 row 0)) as [A3 B3].
    destruct (check_max_fin (m_ps lim) (nth i pss 0)) as [A4 B4].
    destruct (check_max_fin (m_beta lim) (nth 2 row 0)) as [A5 B5].
    rewrite <- A1, <- A2, <- A3, <- A4, <- A5.
    destruct (check_range _ _); cbn; [|split; [intuition discriminate|exact B1]].
    destruct (check_range _ _); cbn; [|split; [intuition discriminate|exact B2]].
    destruct (check_range _ _); cbn; [|split; [intuition discriminate|exact B3]].
    destruct (check_max _ _); cbn; [|split; [intuition discriminate|exact B4]].
    destruct (check_max _ _); cbn; [|split; [intuition discriminate|exact B5]].
    split; [tauto|discriminate].
  Qed.

  Lemma verify_checks lim rows nzs pss :
    Forall (fun r => length r = 16%nat) rows -> length nzs = length rows -> length pss = length rows ->
    let v := verify (limits_of lim) true (map (map Fin) rows) (map Fin nzs) (map Fin pss) in
    (v = Ok tt <-> every_tick (checked_tick lim) rows nzs pss) /\
    (v <> Ok tt -> v = Err AssertionError).
  Proof.
    intros HW Hn Hp. cbv zeta. unfold verify.
    assert (S : length (concat (map (map Fin) rows)) = (length rows * 16)%nat).
    { rewrite (concat_size _ 16); [rewrite map_length; reflexivity|].
      apply Forall_map. eapply Forall_impl; [|exact HW]. cbn. intros. rewrite map_length. assumption. }
    rewrite S. change (length state_names + num_integrators)%nat with 16%nat.
    rewrite Nat.mod_mul by lia. rewrite Nat.div_mul by lia.
    change (Nat.eqb 0 0) with true. cbn [py_assert bind].
    pose proof (mapM_ok (fun i => verify_tick (limits_of lim) (map (map Fin) rows) (map Fin nzs) (map Fin pss)
                 (Z.of_nat i)) (seq 0 (length rows))) as M.
    pose proof (mapM_err (fun i => verify_tick (limits_of lim) (map (map Fin) rows) (map Fin nzs) (map Fin pss)
                 (Z.of_nat i)) (seq 0 (length rows)) AssertionError) as Q.
    assert (W : forall i, (i < length rows)%nat -> length (nth i rows []) = 16%nat).
    { intros i Hi. rewrite Forall_forall in HW. apply HW, nth_In, Hi. }
    assert (E : every_tick (checked_tick lim) rows nzs pss <->
      Forall (fun i => is_ok (verify_tick (limits_of lim) (map (map Fin) rows) (map Fin nzs) (map Fin pss)
                 (Z.of_nat i)) = true) (seq 0 (length rows))).
    { unfold every_tick. rewrite Forall_forall. split.
      - intros H i Hi. apply in_seq in Hi. apply verify_tick_fin; try lia; [apply W; lia|]. apply H. lia.
      - intros H i Hi. apply verify_tick_fin; try lia; [apply W; lia|]. apply H, in_seq. lia. }
    rewrite E, <- M.
    destruct (mapM _ _); cbn; (split; [split; congruence|]); [congruence|].
    intros _. f_equal. apply Q; [|reflexivity].
    intros i x Hi Hx. apply in_seq in Hi.
    refine (proj2 (verify_tick_fin lim rows nzs pss i _ _ _ _) x Hx); try lia. apply W. lia.
  Qed.

  Lemma at_most_abs l x : at_most l (in_degrees (Rabs x)) -> at_most l x.
  Proof.
    destruct l as [hi|]; [|tauto]. cbn. unfold in_degrees. intros H.
    pose proof (Rle_abs x). pose proof (Rabs_pos x). pose proof PI_RGT_0. pose proof PI_4.
    assert (Rabs x <= Rabs x * 180 / PI).
    { apply (Rmult_le_reg_r PI); [lra|]. replace (Rabs x * 180 / PI * PI) with (Rabs x * 180) by (field; lra).
      nra. }
    lra.
  Qed.

  Lemma safe_checked lim row nz ps : safe_tick lim row nz ps -> checked_tick lim row nz ps.
  Proof.
    intros [A [B [C [D [E F]]]]]. unfold checked_tick. repeat split; try assumption; apply at_most_abs; assumption.
  Qed.

  Lemma verify_complete lim rows nzs pss :
    Forall (fun r => length r = 16%nat) rows -> length nzs = length rows -> length pss = length rows ->
    every_tick (safe_tick lim) rows nzs pss ->
    verify (limits_of lim) true (map (map Fin) rows) (map Fin nzs) (map Fin pss) = Ok tt.
  Proof.
    intros HW Hn Hp S. apply verify_checks; try assumption. intros i Hi. apply safe_checked, S, Hi.
  Qed.

  Definition one_row (vt beta : R) : list R := [vt; 0; beta; 0; 0; 0; 0; 0; 0; 0; 0; 1000; 9; 0; 0; 0].
  Definition no_limits : flight_limits := Build_flight_limits None None None None None None.

  Lemma speed_unchecked : exists lim rows nzs pss,
    Forall (fun r => length r = 16%nat) rows /\ length nzs = length rows /\ length pss = length rows /\
    m_beta lim = None /\ m_ps lim = None /\
    verify (limits_of lim) true (map (map Fin) rows) (map Fin nzs) (map Fin pss) = Ok tt /\
    ~ every_tick (safe_tick lim) rows nzs pss.
  Proof.
    exists (Build_flight_limits None None (Some (300, 900)) None None None), [one_row 5000 0], [0], [0].
    split; [repeat constructor|]. do 4 (split; [reflexivity|]). split.
    - apply verify_checks; [repeat constructor|reflexivity..|].
      intros [|i] Hi; [|cbn in Hi; lia]. unfold checked_tick. cbn. tauto.
    - intros S. specialize (S 0%nat ltac:(cbn; lia)). destruct S as [_ [_ [S _]]]. cbn in S. lra.
  Qed.

  (** One radian of sideslip, to either side, passes a limit of 15 degrees. *)
  Lemma sideslip_unchecked : exists lim, m_beta lim = Some 15 /\ m_speed lim = None /\ m_ps lim = None /\
    forall b, (b = 1 \/ b = -1) ->
    verify (limits_of lim) true (map (map Fin) [one_row 500 b]) (map Fin [0]) (map Fin [0]) = Ok tt /\
    ~ every_tick (safe_tick lim) [one_row 500 b] [0] [0].
  Proof.
    exists (Build_flight_limits None None None None None (Some 15)). do 3 (split; [reflexivity|]).
    intros b Hb. split.
    - apply verify_checks; [repeat constructor|reflexivity..|].
      intros [|i] Hi; [|cbn in Hi; lia]. unfold checked_tick. cbn. repeat split; lra.
    - intros S. specialize (S 0%nat ltac:(cbn; lia)). destruct S as [_ [_ [_ [_ [_ S]]]]]. cbn in S.
      assert (A : Rabs b = 1).
      { destruct Hb as [->| ->]; [apply Rabs_pos_eq; lra|]. rewrite Rabs_left by lra. lra. }
      rewrite A in S. unfold in_degrees in S. pose proof PI_4. pose proof PI_RGT_0.
      apply (Rmult_le_compat_r PI) in S; [|lra].
      replace (1 * 180 / PI * PI) with 180 in S by (field; lra). lra.
  Qed.
End Verify.

(** Without a controller no run is accepted: rows of 16 are required but 13 are counted. *)
Lemma verify_without_llc {T} {N : Num T} (lim : limits T) rows nzs pss w :
  rows <> [] -> 0 < w -> Forall (fun r => length r = w) rows ->
  is_ok (verify lim false rows nzs pss) = false.
Proof.
  intros Hr Hw HW. unfold verify. rewrite (concat_size _ w HW).
  change (length state_names) with 13. set (size := length rows * w).
  assert (Hn : 0 < length rows) by (destruct rows; [congruence|cbn; lia]).
  destruct (Nat.eqb_spec (size mod 13) 0) as [E|]; [|reflexivity]. cbn [py_assert bind].
  assert (D : size = 13 * (size / 13)) by (apply Nat.div_exact; [lia|exact E]).
  assert (P : 0 < size) by (unfold size; nia).
  assert (Bad : exists i, i < size / 13 /\ is_ok (verify_tick lim rows nzs pss (Z.of_nat i)) = false).
  { destruct (Nat.eq_dec w 16) as [->|Hne].
    - exists (length rows). split; [unfold size in *; lia|].
      unfold verify_tick. rewrite py_index_out by lia. reflexivity.
    - exists 0. split; [lia|]. unfold verify_tick. rewrite (py_index_nth rows 0 []) by exact Hn. cbn [bind].
      assert (L : length (nth 0 rows []) = w) by (rewrite Forall_forall in HW; apply HW, nth_In, Hn).
      rewrite L. destruct (Nat.eqb_spec w 16); [congruence|reflexivity]. }
  destruct Bad as [i [Hi B]].
  destruct (mapM _ _) eqn:M; [|reflexivity]. exfalso.
  assert (F : is_ok (mapM (fun i => verify_tick lim rows nzs pss (Z.of_nat i)) (seq 0 (size / 13))) = true)
    by (rewrite M; reflexivity).
  apply mapM_ok in F. rewrite Forall_forall in F. specialize (F i). rewrite B in F.
  discriminate F. apply in_seq. lia.
Qed.

(** * C66, C81 *)
Lemma slice_nth {A} (l : list A) d a m : a + m <= length l ->
  slice l (Z.of_nat a) (Z.of_nat (a + m)) = map (fun j => nth (a + j) l d) (seq 0 m).
Proof.
  intros H. unfold slice.
  destruct (Z.ltb_spec (Z.of_nat a) 0); [lia|]. destruct (Z.ltb_spec (Z.of_nat (a + m)) 0); [lia|].
  rewrite !Z.min_l by lia. replace (Z.to_nat (Z.of_nat (a + m) - Z.of_nat a)) with m by lia.
  rewrite Nat2Z.id. clear H0 H1. revert l H. induction a; intros l H.
  - cbn [skipn Nat.add]. revert l H. induction m; intros [|x l] H; cbn in *; try lia; [reflexivity..|].
    f_equal. rewrite <- seq_shift, map_map. rewrite IHm by lia. reflexivity.
  - destruct l as [|x l]; [cbn in H; lia|]. cbn [skipn Nat.add nth]. apply IHa. cbn in H. lia.
Qed.

Lemma columns_concat {A} (d : A) n : forall row, length row = 16 * n ->
  concat (map (fun i => aircraft_columns d i row) (seq 0 n)) = row.
Proof.
  induction n; intros row L; [destruct row; [reflexivity|cbn in L; lia]|].
  do 16 (destruct row as [|? row]; [cbn in L; lia|]).
  cbn [seq map concat]. rewrite <- seq_shift, map_map.
  match goal with |- _ ++ ?c = _ => assert (E : c = row) end.
  { etransitivity; [|apply (IHn row); cbn in L; lia]. f_equal. apply map_ext. intros i.
    unfold aircraft_columns. apply map_ext. intros j.
    replace (16 * S i + j) with (16 + (16 * i + j)) by lia. reflexivity. }
  rewrite E. reflexivity.
Qed.

Section Extract.
  Context {T S X : Type} (d : T) (dx : X).

  (** One value per aircraft at every time of every extended list. *)
  Definition tuples (n : nat) (ext : option (list (list (list X)))) : Prop :=
    match ext with None => True | Some ls => Forall (Forall (fun t => length t = n)) ls end.

  Lemma extract_columns (r : sim_result T S X) n i :
    2 <= n -> i < n -> r_states r <> [] ->
    Forall (fun row => length row = 16 * n) (r_states r) -> tuples n (r_ext r) ->
    extract_single_result r (Z.of_nat i)
    = Ok (Single (r_status r) (r_times r) (r_modes r) (map (aircraft_columns d i) (r_states r))
            (option_map (map (map (fun t => nth i t dx))) (r_ext r))).
  Proof.
    intros Hn Hi Hr HW HT. unfold extract_single_result.
    change (Z.of_nat (length state_names + num_integrators)) with 16%Z.
    destruct (r_states r) as [|row0 rows] eqn:E; [congruence|].
    replace (py_index (row0 :: rows) 0) with (Ok row0 : res (list T)).
    2: { change 0%Z with (Z.of_nat 0). rewrite (py_index_nth _ 0 []) by (cbn; lia). reflexivity. }
    cbn [bind]. rewrite <- E in *.
    assert (L0 : length row0 = 16 * n) by (rewrite E in HW; inversion HW; assumption).
    rewrite L0. replace (Z.of_nat (16 * n) / 16)%Z with (Z.of_nat n).
    2: { rewrite Nat2Z.inj_mul, Z.mul_comm. symmetry. apply Z.div_mul. lia. }
    destruct (Z.eqb_spec (Z.of_nat n) 1); [lia|].
    replace (map (fun row => slice row (16 * Z.of_nat i) (16 * (Z.of_nat i + 1))) (r_states r))
      with (map (aircraft_columns d i) (r_states r)).
    2: { apply map_ext_in. intros row Hrow. rewrite Forall_forall in HW. specialize (HW row Hrow).
         replace (16 * Z.of_nat i)%Z with (Z.of_nat (16 * i)) by lia.
         replace (16 * (Z.of_nat i + 1))%Z with (Z.of_nat (16 * i + 16)) by lia.
         symmetry. apply slice_nth. lia. }
    destruct (r_ext r) as [ls|]; [|reflexivity]. cbn in HT.
    rewrite (mapM_map _ (map (fun t => nth i t dx))); [reflexivity|].
    intros l Hl. apply mapM_map. intros t Ht. apply py_index_nth.
    rewrite Forall_forall in HT. specialize (HT l Hl). rewrite Forall_forall in HT.
    rewrite (HT t Ht). exact Hi.
  Qed.

  Lemma extract_one (r : sim_result T S X) i : r_states r <> [] ->
    Forall (fun row => length row = 16) (r_states r) ->
    extract_single_result r i = if (i =? 0)%Z then Ok (Whole r) else Err AssertionError.
  Proof.
    intros Hr HW. unfold extract_single_result.
    change (Z.of_nat (length state_names + num_integrators)) with 16%Z.
    destruct (r_states r) as [|row0 rows] eqn:E; [congruence|].
    replace (py_index (row0 :: rows) 0) with (Ok row0 : res (list T)).
    2: { change 0%Z with (Z.of_nat 0). rewrite (py_index_nth _ 0 []) by (cbn; lia). reflexivity. }
    inversion_clear HW as [|? ? L0 _]. cbn [bind]. rewrite L0.
    change (Z.of_nat 16 / 16)%Z with 1%Z. cbn [Z.eqb Pos.eqb].
    unfold py_assert. destruct (i =? 0)%Z; reflexivity.
  Qed.
End Extract.

(** Two aircraft. *)
Definition formation : sim_result nat nat nat :=
  mk_result nat nat 0 1 2 [seq 0 32; seq 100 32] (Some [[[7; 8]; [9; 10]]]).

Lemma extract_last : extract_single_result formation (-1)
  = Ok (Single 0 1 2 [[]; []] (Some [[8; 10]])).
Proof. reflexivity. Qed.
Lemma extract_beyond : extract_single_result (mk_result nat nat 0 1 2 [seq 0 32; seq 100 32] (None : option (list (list (list nat))))) 2
  = Ok (Single 0 1 2 [[]; []] None).
Proof. reflexivity. Qed.
