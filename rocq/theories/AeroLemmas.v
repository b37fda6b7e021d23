(** Table lookup over exact reals. *)
From Coq Require Import List ZArith Reals Lra Lia Bool.
From Flocq Require Import Core.Raux.
From Verif Require Import PyBase Num XReal AeroTables Aero SpecTables SpecAero.
Import ListNotations.
Local Open Scope R_scope.
Local Hint Extern 0 (Num xr) => exact (XR Fin) : typeclass_instances.

Definition rsign (x : R) : Z := if Rlt_bool x 0 then -1 else if Req_bool x 0 then 0 else 1.

Lemma sign_fin (x : R) : sign_ (Fin x) = rsign x.
Proof.
  unfold sign_, rsign. cbn.
  replace (0 / 1) with 0 by field. reflexivity.
Qed.

Lemma rsign_cases x :
  (x < 0 /\ rsign x = (-1)%Z) \/ (x = 0 /\ rsign x = 0%Z) \/ (0 < x /\ rsign x = 1%Z).
Proof.
  unfold rsign. case Rlt_bool_spec; intros H; [left; auto|].
  case Req_bool_spec; intros H'; [right; left; auto|]. right; right. split; [lra|reflexivity].
Qed.

Definition rfix (x : R) : Z := if Rlt_bool 0 x then Zfloor x else Zceil x.

Lemma fix_fin x : fix_ (Fin x) = Ok (rfix x).
Proof.
  unfold fix_, rfix. cbn. replace (0 / 1) with 0 by field.
  destruct (Rlt_bool 0 x); reflexivity.
Qed.

Lemma rfix_cases x :
  (0 < x /\ IZR (rfix x) <= x < IZR (rfix x) + 1 /\ (0 <= rfix x)%Z) \/
  (x <= 0 /\ IZR (rfix x) - 1 < x <= IZR (rfix x) /\ (rfix x <= 0)%Z).
Proof.
  unfold rfix. case Rlt_bool_spec; intros H.
  - left. pose proof (Zfloor_lb x). pose proof (Zfloor_ub x).
    repeat split; try assumption; try lra.
    apply Zfloor_lub. lra.
  - right. pose proof (Zceil_ub x). pose proof (Zceil_lb x).
    repeat split; try assumption; try lra.
    apply Zceil_glb. lra.
Qed.

Lemma fix_tenth z : (-1 <= z <= 1)%Z -> fix_ (nmul (nlit 11 10) (nZ z : xr)) = Ok z.
Proof.
  intros Hz. change (nmul (nlit 11 10) (nZ z : xr)) with (Fin (11 / 10 * (IZR z / 1))). rewrite fix_fin.
  assert (z = -1 \/ z = 0 \/ z = 1)%Z as [ -> | [ -> | -> ] ] by lia; f_equal.
  - unfold rfix. rewrite Rlt_bool_false by lra. apply Zceil_imp. cbn. lra.
  - unfold rfix. rewrite Rlt_bool_false by lra. apply Zceil_imp. cbn. lra.
  - unfold rfix. rewrite Rlt_bool_true by lra. apply Zfloor_imp. cbn. lra.
Qed.

Lemma rsign_range x : (-1 <= rsign x <= 1)%Z.
Proof. destruct (rsign_cases x) as [[_ ->]|[[_ ->]|[_ ->]]]; lia. Qed.

Lemma nZ_fin z : (nZ z : xr) = Fin (IZR z).
Proof. unfold nZ. cbn. f_equal. field. Qed.

(** One axis of a lookup: the value obtained from the two selected neighbours. *)
Definition one (t : Z -> R) (k : Z) (d : R) (l : Z) : R := t k + Rabs d * (t l - t k).

Ltac izr :=
  repeat match goal with
  | H : (_ <= _)%Z |- _ => apply IZR_le in H
  | H : (_ < _)%Z |- _ => apply IZR_lt in H
  end.

Lemma one_on_cell t k s j :
  (rsign (s - IZR k) = 0%Z -> (j = k \/ j = (k - 1)%Z)) ->
  (rsign (s - IZR k) = 1%Z -> j = k) ->
  (rsign (s - IZR k) = (-1)%Z -> j = (k - 1)%Z) ->
  one t k (s - IZR k) (k + rsign (s - IZR k)) = on_cell t j s.
Proof.
  intros H0 H1 H2. unfold one, on_cell.
  destruct (rsign_cases (s - IZR k)) as [[Hs E]|[[Hs E]|[Hs E]]]; rewrite E in *.
  - rewrite (H2 eq_refl). rewrite Rabs_left by lra.
    replace (k + -1)%Z with (k - 1)%Z by lia. replace (k - 1 + 1)%Z with k by lia.
    rewrite minus_IZR. ring.
  - destruct (H0 eq_refl) as [ -> | -> ].
    + rewrite Hs, Rabs_R0. ring.
    + replace (k - 1 + 1)%Z with k by lia. replace (s - IZR (k - 1)) with 1.
      2: { rewrite minus_IZR. lra. }
      rewrite Hs, Rabs_R0. ring.
  - rewrite (H1 eq_refl). rewrite Rabs_pos_eq by lra. ring.
Qed.

Lemma cell_spec lo hi s : (lo < 0)%Z -> (0 < hi)%Z ->
  exists k, cell lo hi (Fin s) = Ok (k, Fin (s - IZR k), (k + rsign (s - IZR k))%Z) /\
    (lo < k < hi)%Z /\
    forall t j, in_cell lo hi j s ->
      one t k (s - IZR k) (k + rsign (s - IZR k)) = on_cell t j s.
Proof.
  intros Hlo Hhi. unfold cell. rewrite fix_fin. cbn [bind].
  set (k := if (hi <=? _)%Z then _ else _).
  exists k. split; [|split].
  - rewrite (nZ_fin k). change (nsub (Fin s) (Fin (IZR k))) with (Fin (s - IZR k)). rewrite sign_fin, fix_tenth by apply rsign_range.
    reflexivity.
  - unfold k. destruct (Z.leb_spec (rfix s) lo);
      match goal with |- context [(?a <=? ?b)%Z] => destruct (Z.leb_spec a b) end; lia.
  - intros t j [Hj [Hl Hr]].
    assert (Hk : (k = rfix s /\ lo < k < hi)%Z \/ (k = lo + 1 /\ rfix s <= lo)%Z
                 \/ (k = hi - 1 /\ hi <= rfix s)%Z).
    { unfold k. destruct (Z.leb_spec (rfix s) lo);
      match goal with |- context [(?a <=? ?b)%Z] => destruct (Z.leb_spec a b) end; lia. }
    clearbody k.
    pose proof (rfix_cases s) as Hf.
    apply one_on_cell; intros E;
      destruct (rsign_cases (s - IZR k)) as [[Hs E']|[[Hs E']|[Hs E']]]; rewrite E' in E;
      try discriminate E; clear E E'.
    + (* s = k *)
      assert (j <= k)%Z.
      { destruct Hl as [ -> |Hl]; [destruct Hk as [Hk|[Hk|Hk]]; lia|].
        apply le_IZR. lra. }
      assert (k - 1 <= j)%Z; [|lia].
      destruct Hr as [Hr|Hr]; [destruct Hk as [Hk|[Hk|Hk]]; lia|].
      enough (k <= j + 1)%Z by lia. apply le_IZR. lra.
    + (* k < s *)
      assert (k <= j)%Z.
      { destruct Hr as [Hr|Hr]; [destruct Hk as [Hk|[Hk|Hk]]; lia|].
        enough (k < j + 1)%Z by lia. apply lt_IZR. lra. }
      enough (j < k + 1)%Z by lia.
      destruct Hk as [[Hk Hk']|[[Hk Hk']|[Hk Hk']]].
      * destruct Hl as [ -> |Hl]; [lia|]. apply lt_IZR. rewrite plus_IZR.
        rewrite <- Hk in Hf. destruct Hf as [Hf|Hf]; lra.
      * exfalso. apply IZR_le in Hk'. rewrite Hk, plus_IZR in Hs.
        destruct Hf as [[Hf [Hf1 Hf2]]|Hf]; [|lra].
        apply IZR_le in Hf2. apply IZR_lt in Hlo. lra.
      * lia.
    + (* s < k *)
      assert (j < k)%Z.
      { destruct Hl as [ -> |Hl]; [destruct Hk as [Hk|[Hk|Hk]]; lia|].
        apply lt_IZR. lra. }
      enough (k - 1 <= j)%Z by lia.
      destruct Hk as [[Hk Hk']|[[Hk Hk']|[Hk Hk']]].
      * destruct Hr as [Hr|Hr]; [lia|].
        rewrite <- Hk in Hf. destruct Hf as [Hf|Hf]; [lra|].
        enough (k - 1 < j + 1)%Z by lia. apply lt_IZR. rewrite minus_IZR. lra.
      * lia.
      * exfalso. apply IZR_le in Hk'. rewrite Hk, minus_IZR in Hs.
        destruct Hf as [Hf|[Hf [Hf1 Hf2]]]; [lra|].
        apply IZR_le in Hf2. apply IZR_lt in Hhi. lra.
Qed.

Lemma beta_cell_spec s : 0 <= s ->
  exists k, beta_cell (Fin s) = Ok (k, Fin (s - IZR k), (k + rsign (s - IZR k))%Z) /\
    (0 < k < 6)%Z /\
    forall t j, in_cell 0 6 j s ->
      one t k (s - IZR k) (k + rsign (s - IZR k)) = on_cell t j s.
Proof.
  intros Hs0. unfold beta_cell. rewrite fix_fin. cbn [bind].
  set (k := if (6 <=? _)%Z then _ else _).
  assert (Hf : IZR (rfix s) <= s < IZR (rfix s) + 1 /\ (0 <= rfix s)%Z).
  { destruct (rfix_cases s) as [H|[H1 [H2 H3]]]; [tauto|].
    assert (s = 0) by lra. subst s. unfold rfix. rewrite Rlt_bool_false by lra.
    rewrite (Zceil_imp 0) by (cbn; lra). split; [cbn; lra|lia]. }
  exists k. split; [|split].
  - rewrite (nZ_fin k). change (nsub (Fin s) (Fin (IZR k))) with (Fin (s - IZR k)). rewrite sign_fin, fix_tenth by apply rsign_range.
    reflexivity.
  - unfold k. destruct (Z.eqb_spec (rfix s) 0);
      match goal with |- context [(?a <=? ?b)%Z] => destruct (Z.leb_spec a b) end; lia.
  - intros t j [Hj [Hl Hr]].
    assert (Hk : (k = rfix s /\ 0 < k < 6)%Z \/ (k = 1 /\ rfix s = 0)%Z
                 \/ (k = 5 /\ 6 <= rfix s)%Z).
    { unfold k. destruct (Z.eqb_spec (rfix s) 0);
      match goal with |- context [(?a <=? ?b)%Z] => destruct (Z.leb_spec a b) end; lia. }
    clearbody k. destruct Hf as [Hf Hf0].
    apply one_on_cell; intros E;
      destruct (rsign_cases (s - IZR k)) as [[Hs E']|[[Hs E']|[Hs E']]]; rewrite E' in E;
      try discriminate E; clear E E'.
    + assert (j <= k)%Z.
      { destruct Hl as [ -> |Hl]; [destruct Hk as [Hk|[Hk|Hk]]; lia|].
        apply le_IZR. lra. }
      assert (k - 1 <= j)%Z; [|lia].
      destruct Hr as [Hr|Hr]; [destruct Hk as [Hk|[Hk|Hk]]; lia|].
      enough (k <= j + 1)%Z by lia. apply le_IZR. lra.
    + assert (k <= j)%Z.
      { destruct Hr as [Hr|Hr]; [destruct Hk as [Hk|[Hk|Hk]]; lia|].
        enough (k < j + 1)%Z by lia. apply lt_IZR. lra. }
      enough (j < k + 1)%Z by lia.
      destruct Hk as [[Hk Hk']|[[Hk Hk']|[Hk Hk']]].
      * destruct Hl as [ -> |Hl]; [lia|]. apply lt_IZR. rewrite plus_IZR.
        rewrite <- Hk in Hf. lra.
      * exfalso. rewrite Hk' in Hf. rewrite Hk in Hs. lra.
      * lia.
    + assert (j < k)%Z.
      { destruct Hl as [ -> |Hl]; [destruct Hk as [Hk|[Hk|Hk]]; lia|].
        apply lt_IZR. lra. }
      enough (k - 1 <= j)%Z by lia.
      destruct Hk as [[Hk Hk']|[[Hk Hk']|[Hk Hk']]].
      * rewrite <- Hk in Hf. lra.
      * lia.
      * exfalso. apply IZR_le in Hk'. rewrite Hk in Hs. lra.
Qed.

Lemma blend_spec a k l m n da de t :
  (forall i j, (i = k \/ i = l) -> (j = m \/ j = n) -> tget a (i - 1) (j - 1) = Ok (Fin (t i j))) ->
  blend a k l m n (Fin da) (Fin de)
  = Ok (Fin (one (fun j => one (fun i => t i j) k da l) m de n)).
Proof.
  intros H. unfold blend. rewrite !H by tauto. cbn [bind]. cbn.
  unfold one. do 2 f_equal. ring.
Qed.


Lemma blend_shift a k l m n da de t p q :
  (forall i j, (i = k \/ i = l) -> (j = m \/ j = n) ->
     tget a (i + p - 1) (j + q - 1) = Ok (Fin (t i j))) ->
  blend a (k + p) (l + p) (m + q) (n + q) (Fin da) (Fin de)
  = Ok (Fin (one (fun j => one (fun i => t i j) k da l) m de n)).
Proof.
  intros H.
  rewrite blend_spec with (t := fun i j => t (i - p)%Z (j - q)%Z).
  - unfold one. rewrite !Z.add_simpl_r. reflexivity.
  - intros i j Hi Hj.
    replace (i - 1)%Z with (i - p + p - 1)%Z by lia.
    replace (j - 1)%Z with (j - q + q - 1)%Z by lia.
    apply H; lia.
Qed.

(** Table contents, compared entry by entry as fractions. *)
Definition same_frac (scale : Z) (r : res (Z * positive)) (z : Z) : bool :=
  match r with Ok (n, d) => (n * scale =? z * Z.pos d)%Z | Err _ => false end.
Definition dget (a : table) (k m : Z) : res (Z * positive) :=
  row <- py_index a m ;; py_index row k.
Definition zrange (lo hi : Z) : list Z :=
  map (fun i => lo + Z.of_nat i)%Z (seq 0 (Z.to_nat (hi - lo + 1))).
Definition tables_agree (scale : Z) (a : table) (tab : list (list Z)) (i0 i1 j0 j1 p q : Z)
  : bool :=
  forallb (fun i => forallb (fun j =>
    same_frac scale (dget a (i + p - 1) (j + q - 1))
              (nth (Z.to_nat (j - j0)) (nth (Z.to_nat (i - i0)) tab []) 0%Z))
    (zrange j0 j1)) (zrange i0 i1).

Lemma in_zrange lo hi i : (lo <= i <= hi)%Z -> In i (zrange lo hi).
Proof.
  intros H. unfold zrange. apply in_map_iff. exists (Z.to_nat (i - lo)). split; [lia|].
  apply in_seq. lia.
Qed.

Lemma tget_dget {T} {N : Num T} a k m : tget a k m = rmap lit (dget a k m).
Proof. unfold tget, dget. destruct (py_index a m); reflexivity. Qed.

Lemma same_frac_spec scale r z : (0 < scale)%Z -> same_frac scale r z = true ->
  rmap lit r = Ok (Fin (IZR z / IZR scale)).
Proof.
  intros Hs H. destruct r as [[n d]|]; [|discriminate H]. cbn in H. apply Z.eqb_eq in H.
  cbn. do 2 f_equal.
  assert (Hd : IZR (Z.pos d) <> 0) by (apply not_0_IZR; lia).
  assert (Hs' : IZR scale <> 0) by (apply not_0_IZR; lia).
  apply Rmult_eq_reg_r with (IZR (Z.pos d)); [|exact Hd].
  apply Rmult_eq_reg_r with (IZR scale); [|exact Hs'].
  transitivity (IZR n * IZR scale); [field; exact Hd|].
  rewrite <- mult_IZR, H, mult_IZR. field. exact Hs'.
Qed.

Lemma tables_agree_spec scale a tab i0 i1 j0 j1 p q :
  tables_agree scale a tab i0 i1 j0 j1 p q = true -> (0 < scale)%Z ->
  forall i j, (i0 <= i <= i1)%Z -> (j0 <= j <= j1)%Z ->
    tget a (i + p - 1) (j + q - 1) = Ok (Fin (entry tab i0 j0 i j / IZR scale)).
Proof.
  intros H Hs i j Hi Hj. unfold tables_agree in H.
  rewrite forallb_forall in H. specialize (H i (in_zrange _ _ _ Hi)).
  rewrite forallb_forall in H. specialize (H j (in_zrange _ _ _ Hj)).
  rewrite tget_dget. unfold entry. apply same_frac_spec; assumption.
Qed.

Lemma fin_tenth a : nmul (nlit 2 10) (Fin a) = Fin (a / 5).
Proof. cbn. f_equal. field. Qed.
Lemma fin_tenth1 a : nmul (nlit 1 10) (Fin a) = Fin (a / 10).
Proof. cbn. f_equal. field. Qed.
Lemma fin_div12 a : ndiv (Fin a) (nZ 12) = Fin (a / 12).
Proof. rewrite nZ_fin. cbn. rewrite Req_bool_false by lra. reflexivity. Qed.

(** A lookup in the 12x5 tables indexed by angle of attack and elevator. *)
Lemma lookup_el a tab : tables_agree 1000 a tab (-2) 9 (-2) 2 3 3 = true ->
  forall al el k m, in_cell (-2) 9 k (al / 5) -> in_cell (-2) 2 m (el / 12) ->
  ('(k, da, l) <- cell (-2) 9 (nmul (nlit 2 10) (Fin al)) ;;
   '(m, de, n) <- cell (-2) 2 (ndiv (Fin el) (nZ 12)) ;;
   blend a (k + 3) (l + 3) (m + 3) (n + 3) da de)
  = Ok (Fin (on_cell2 (coeff tab (-2) (-2)) k m (al / 5) (el / 12))).
Proof.
  intros Ht al el k m Hk Hm. rewrite fin_tenth, fin_div12.
  destruct (cell_spec (-2) 9 (al / 5)) as [k1 [-> [Hr1 H1]]]; try lia.
  destruct (cell_spec (-2) 2 (el / 12)) as [m1 [-> [Hr2 H2]]]; try lia.
  cbn [bind].
  pose proof (rsign_range (al / 5 - IZR k1)). pose proof (rsign_range (el / 12 - IZR m1)).
  rewrite blend_shift with (t := coeff tab (-2) (-2)).
  - unfold on_cell2. rewrite (H2 _ m Hm). unfold on_cell at 1 3.
    rewrite !(H1 _ k Hk). reflexivity.
  - intros i j Hi Hj. unfold coeff.
    apply (tables_agree_spec 1000 a tab (-2) 9 (-2) 2 3 3 Ht); lia.
Qed.

Lemma lookup_beta a tab : tables_agree 1000 a tab (-2) 9 (-3) 3 3 4 = true ->
  forall al be k m, in_cell (-2) 9 k (al / 5) -> in_cell (-3) 3 m (be / 10) ->
  ('(k, da, l) <- cell (-2) 9 (nmul (nlit 2 10) (Fin al)) ;;
   '(m, de, n) <- cell (-3) 3 (nmul (nlit 1 10) (Fin be)) ;;
   blend a (k + 3) (l + 3) (m + 4) (n + 4) da de)
  = Ok (Fin (on_cell2 (coeff tab (-2) (-3)) k m (al / 5) (be / 10))).
Proof.
  intros Ht al el k m Hk Hm. rewrite fin_tenth, fin_tenth1.
  destruct (cell_spec (-2) 9 (al / 5)) as [k1 [-> [Hr1 H1]]]; try lia.
  destruct (cell_spec (-3) 3 (el / 10)) as [m1 [-> [Hr2 H2]]]; try lia.
  cbn [bind].
  pose proof (rsign_range (al / 5 - IZR k1)). pose proof (rsign_range (el / 10 - IZR m1)).
  rewrite blend_shift with (t := coeff tab (-2) (-3)).
  - unfold on_cell2. rewrite (H2 _ m Hm). unfold on_cell at 1 3.
    rewrite !(H1 _ k Hk). reflexivity.
  - intros i j Hi Hj. unfold coeff.
    apply (tables_agree_spec 1000 a tab (-2) 9 (-3) 3 3 4 Ht); lia.
Qed.

Lemma lookup_odd a tab : tables_agree 1000 a tab (-2) 9 0 6 3 1 = true ->
  forall al be k m, in_cell (-2) 9 k (al / 5) -> in_cell 0 6 m (Rabs be / 5) ->
  ('(k, da, l) <- cell (-2) 9 (nmul (nlit 2 10) (Fin al)) ;;
   '(m, db, n) <- beta_cell (nmul (nlit 2 10) (nabs (Fin be))) ;;
   dum <- blend a (k + 3) (l + 3) (m + 1) (n + 1) da db ;;
   Ok (nmul dum (nZ (sign_ (Fin be)))))
  = Ok (Fin (on_cell2 (coeff tab (-2) 0) k m (al / 5) (Rabs be / 5) * IZR (rsign be))).
Proof.
  intros Ht al be k m Hk Hm. change (nabs (Fin be)) with (Fin (Rabs be)).
  rewrite !fin_tenth.
  assert (Hb : 0 <= Rabs be / 5) by (pose proof (Rabs_pos be); lra).
  destruct (cell_spec (-2) 9 (al / 5)) as [k1 [-> [Hr1 H1]]]; try lia.
  destruct (beta_cell_spec (Rabs be / 5) Hb) as [m1 [-> [Hr2 H2]]].
  cbn [bind].
  pose proof (rsign_range (al / 5 - IZR k1)). pose proof (rsign_range (Rabs be / 5 - IZR m1)).
  rewrite blend_shift with (t := coeff tab (-2) 0).
  - cbn [bind]. rewrite nZ_fin, sign_fin.
    unfold on_cell2. rewrite (H2 _ m Hm). unfold on_cell at 1 3.
    rewrite !(H1 _ k Hk). reflexivity.
  - intros i j Hi Hj. unfold coeff.
    apply (tables_agree_spec 1000 a tab (-2) 9 0 6 3 1 Ht); lia.
Qed.
