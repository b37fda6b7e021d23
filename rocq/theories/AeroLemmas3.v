(** cz, dampp, thrust and the engine functions over exact reals. *)
From Coq Require Import List ZArith Reals Lra Lia Bool.
From Flocq Require Import Core.Raux.
From Coquelicot Require Import Coquelicot.
From Verif Require Import PyBase Num XReal AeroTables Aero SpecTables SpecAero AeroLemmas
  AeroLemmas2.
Import List ListNotations.
Local Open Scope R_scope.
Local Hint Extern 0 (Num xr) => exact (XR Fin) : typeclass_instances.

(** * cz and dampp *)
Definition rows_agree (a : list (Z * positive)) (tab : list Z) (i0 i1 p : Z) : bool :=
  forallb (fun i => same_frac 1000 (py_index a (i + p - 1))
                              (nth (Z.to_nat (i - i0)) tab 0%Z)) (zrange i0 i1).

Lemma rows_agree_spec a tab i0 i1 p : rows_agree a tab i0 i1 p = true ->
  forall i, (i0 <= i <= i1)%Z ->
    rmap lit (py_index a (i + p - 1)) = Ok (Fin (coeff1 tab i0 i)).
Proof.
  intros H i Hi. unfold rows_agree in H. rewrite forallb_forall in H.
  specialize (H i (in_zrange _ _ _ Hi)). apply same_frac_spec in H; [|lia]. exact H.
Qed.

Lemma cz_fin a b e k : in_cell (-2) 9 k (a / 5) ->
  cz (Fin a) (Fin b) (Fin e)
  = Ok (Fin (on_cell (coeff1 tab_cz (-2)) k (a / 5) * (1 - (b / 57.3) * (b / 57.3))
             - 0.19 * (e / 25))).
Proof.
  intros Hk. unfold cz. rewrite fin_tenth.
  destruct (cell_spec (-2) 9 (a / 5)) as [k1 [-> [Hr1 H1]]]; try lia. cbn [bind].
  pose proof (rsign_range (a / 5 - IZR k1)).
  assert (Ht := rows_agree_spec cz_table tab_cz (-2) 9 3 eq_refl).
  rewrite !Ht by lia. cbn [bind].
  rewrite <- (H1 _ k Hk). unfold one. cbn.
  rewrite !Req_bool_false by lra. cbn.
  replace 57.3 with (573 / 10) by lra. replace 0.19 with (19 / 100) by lra.
  do 2 f_equal. field.
Qed.

Definition damp_ix : list Z := [0; 1; 2; 3; 4; 5; 6; 7; 8]%Z.

Lemma mapM_ok {A B} (f : A -> res B) (g : A -> B) l :
  (forall a, In a l -> f a = Ok (g a)) -> mapM f l = Ok (map g l).
Proof.
  induction l as [|a l IH]; intros H; [reflexivity|]. cbn [mapM map].
  rewrite H by (left; reflexivity). cbn [bind]. rewrite IH; [reflexivity|].
  intros x Hx. apply H. right. exact Hx.
Qed.

Lemma dampp_fin a k : in_cell (-2) 9 k (a / 5) ->
  dampp (Fin a)
  = Ok (map (fun i => Fin (on_cell (fun j => coeff tab_dampp (-2) 0 j i) k (a / 5))) damp_ix).
Proof.
  intros Hk. unfold dampp. rewrite fin_tenth.
  destruct (cell_spec (-2) 9 (a / 5)) as [k1 [-> [Hr1 H1]]]; try lia. cbn [bind].
  pose proof (rsign_range (a / 5 - IZR k1)).
  assert (Ht := tables_agree_spec 1000 dampp_table tab_dampp (-2) 9 0 8 3 1 eq_refl eq_refl).
  change [0; 1; 2; 3; 4; 5; 6; 7; 8]%Z with damp_ix.
  apply mapM_ok. intros i Hi.
  assert (0 <= i <= 8)%Z by (unfold damp_ix in Hi; cbn in Hi; lia).
  assert (Ht' : forall j, (-2 <= j <= 9)%Z ->
     tget dampp_table (j + 3 - 1) i = Ok (Fin (coeff tab_dampp (-2) 0 j i))).
  { intros j Hj. rewrite <- (Z.add_simpl_r i 1). rewrite (Ht j i) by lia.
    rewrite Z.add_simpl_r. reflexivity. }
  rewrite !Ht' by lia. cbn [bind].
  rewrite <- (H1 (fun j => coeff tab_dampp (-2) 0 j i) k Hk). reflexivity.
Qed.

(** * thrust *)
Lemma thrust_at_spec a tab i m dh dm :
  tables_agree 1 a tab 0 5 0 5 1 1 = true ->
  (0 <= i < 5)%Z -> (0 <= m < 5)%Z ->
  thrust_at a i m (Fin dh) (Fin (1 - dh)) (Fin dm)
  = Ok (Fin (on_cell2 (entry tab 0 0) i m (dh + IZR i) (dm + IZR m))).
Proof.
  intros Ht Hi Hm.
  assert (Ht' : forall i j, (0 <= i <= 5)%Z -> (0 <= j <= 5)%Z ->
    tget a i j = Ok (Fin (entry tab 0 0 i j))).
  { intros i' j' Hi' Hj'.
    pose proof (tables_agree_spec 1 a tab 0 5 0 5 1 1 Ht eq_refl i' j' Hi' Hj') as E.
    rewrite !Z.add_simpl_r in E. rewrite E. do 2 f_equal. field. }
  unfold thrust_at. rewrite !Ht' by lia. cbn. unfold on_cell2, on_cell.
  do 2 f_equal. ring.
Qed.

Lemma cell_clamp_in hi s k : (0 < hi)%Z ->
  (k = Z.max 0 (Z.min (hi - 1) (rfix s))) -> in_cell 0 hi k s.
Proof.
  intros Hh ->. destruct (rfix_cases s) as [[H1 [H2 H3]]|[H1 [H2 H3]]].
  - split; [lia|]. split.
    + right. apply Rle_trans with (IZR (rfix s)); [apply IZR_le; lia|lra].
    + destruct (Z.eq_dec (Z.max 0 (Z.min (hi - 1) (rfix s)) + 1) hi); [left; assumption|right].
      apply Rle_trans with (IZR (rfix s + 1)); [rewrite plus_IZR; lra|apply IZR_le; lia].
  - replace (Z.max 0 (Z.min (hi - 1) (rfix s))) with 0%Z by lia.
    split; [lia|]. split; [left; reflexivity|]. right. cbn. lra.
Qed.

Lemma on_cell2_unique lo hi lo' hi' t s e j j' m m' :
  in_cell lo hi j s -> in_cell lo hi j' s -> in_cell lo' hi' m e -> in_cell lo' hi' m' e ->
  on_cell2 t j m s e = on_cell2 t j' m' s e.
Proof.
  intros Hj Hj' Hm Hm'. unfold on_cell2.
  rewrite (on_cell_unique lo' hi' _ e m m' Hm Hm'). apply on_cell_ext;
    apply (on_cell_unique lo hi); assumption.
Qed.

Definition alt_used (alt : R) : R := if Rlt_dec alt 0 then 0.01 else alt.

Lemma thrust_fin power alt mach j m :
  in_cell 0 5 j (alt_used alt / 10000) -> in_cell 0 5 m (5 * mach) ->
  thrust (Fin power) (Fin alt) (Fin mach)
  = Ok (Fin (thrust_blend power
        (thrust_on idle_thrust j m (alt_used alt / 10000) (5 * mach))
        (thrust_on military_thrust j m (alt_used alt / 10000) (5 * mach))
        (thrust_on maximum_thrust j m (alt_used alt / 10000) (5 * mach)))).
Proof.
  intros Hj Hm. unfold thrust.
  assert (Ea : (if nltb (Fin alt) n0 then nlit 1 100 else Fin alt) = Fin (alt_used alt)).
  { unfold alt_used. cbn. replace (0 / 1) with 0 by field.
    case Rlt_bool_spec; intros H; destruct (Rlt_dec alt 0); try lra; [|reflexivity].
    f_equal. }
  rewrite Ea.
  assert (Ha : 0 <= alt_used alt) by (unfold alt_used; destruct (Rlt_dec alt 0); lra).
  change (nmul (nlit 1 10000) (Fin (alt_used alt))) with (Fin (1 / 10000 * alt_used alt)).
  replace (1 / 10000 * alt_used alt) with (alt_used alt / 10000) by field.
  set (h := alt_used alt / 10000) in *.
  assert (Hh : 0 <= h) by (unfold h; lra).
  rewrite fix_fin. cbn [bind].
  set (i := if (5 <=? rfix h)%Z then 4%Z else rfix h).
  assert (Hf : (0 <= rfix h)%Z).
  { destruct (rfix_cases h) as [Hf|[Hf1 [Hf2 Hf3]]]; [tauto|].
    assert (-1 < rfix h)%Z; [|lia]. apply lt_IZR. lra. }
  assert (Hi : in_cell 0 5 i h).
  { apply cell_clamp_in; [lia|]. unfold i. destruct (Z.leb_spec 5 (rfix h)); lia. }
  change (nmul (nZ 5) (Fin mach)) with (Fin (5 / 1 * mach)).
  replace (5 / 1 * mach) with (5 * mach) by field. set (rm := 5 * mach) in *.
  rewrite fix_fin. cbn [bind].
  set (mm := if (5 <=? rfix rm)%Z then 4%Z else if (rfix rm <=? 0)%Z then 0%Z else rfix rm).
  assert (Hmm : in_cell 0 5 mm rm).
  { apply cell_clamp_in; [lia|]. unfold mm.
    destruct (Z.leb_spec 5 (rfix rm)), (Z.leb_spec (rfix rm) 0); lia. }
  rewrite !nZ_fin.
  change (nsub (Fin h) (Fin (IZR i))) with (Fin (h - IZR i)).
  change (nsub (Fin rm) (Fin (IZR mm))) with (Fin (rm - IZR mm)).
  replace (nsub n1 (Fin (h - IZR i))) with (Fin (1 - (h - IZR i))) by (cbn; f_equal; field).
  assert (Hir : (0 <= i < 5)%Z) by (destruct Hi; assumption).
  assert (Hmr : (0 <= mm < 5)%Z) by (destruct Hmm; assumption).
  rewrite (thrust_at_spec thrust_b military_thrust) by (reflexivity || assumption).
  rewrite (thrust_at_spec thrust_a idle_thrust) by (reflexivity || assumption).
  rewrite (thrust_at_spec thrust_c maximum_thrust) by (reflexivity || assumption).
  replace (h - IZR i + IZR i) with h by ring.
  replace (rm - IZR mm + IZR mm) with rm by ring.
  cbn [bind]. unfold thrust_blend, thrust_on.
  rewrite !(on_cell2_unique 0 5 0 5 _ h rm j i m mm) by assumption.
  cbn. case Rlt_bool_spec; intros H; destruct (Rlt_dec power 50); try lra;
    do 2 f_equal; field.
Qed.

(** * Engine *)
Definition rtau_r (dp : R) : R :=
  if Rle_bool dp 25 then 1 else if Rle_bool 50 dp then 1 / 10 else 19 / 10 - 36 / 1000 * dp.

Lemma rtau_fin dp : rtau (Fin dp) = Fin (rtau_r dp).
Proof.
  unfold rtau, rtau_r. cbn. replace (25 / 1) with 25 by field. replace (50 / 1) with 50 by field.
  destruct (Rle_bool dp 25); [f_equal; field|]. destruct (Rle_bool 50 dp); reflexivity.
Qed.

Lemma rtau_r_cases dp :
  (dp <= 25 /\ rtau_r dp = 1) \/ (50 <= dp /\ rtau_r dp = 0.1) \/
  (25 < dp < 50 /\ rtau_r dp = 1.9 - 0.036 * dp).
Proof.
  unfold rtau_r. case Rle_bool_spec; intros H; [left; split; [assumption|reflexivity]|].
  case Rle_bool_spec; intros H'; right; [left|right]; split; try split; try assumption; lra.
Qed.

Definition pdot_r (p3 p1 : R) : R :=
  if Rle_bool 50 p1 then
    if Rle_bool 50 p3 then 5 * (p1 - p3) else rtau_r (60 - p3) * (60 - p3)
  else
    if Rle_bool 50 p3 then 5 * (40 - p3) else rtau_r (p1 - p3) * (p1 - p3).

Lemma pdot_fin p3 p1 : pdot (Fin p3) (Fin p1) = Fin (pdot_r p3 p1).
Proof.
  unfold pdot, pdot_r. rewrite !nZ_fin.
  change (nleb (Fin 50) (Fin p1)) with (Rle_bool 50 p1).
  change (nleb (Fin 50) (Fin p3)) with (Rle_bool 50 p3).
  change (nsub (Fin 60) (Fin p3)) with (Fin (60 - p3)).
  change (nsub (Fin p1) (Fin p3)) with (Fin (p1 - p3)).
  rewrite !rtau_fin.
  destruct (Rle_bool 50 p1), (Rle_bool 50 p3); reflexivity.
Qed.

(** The sign of the power derivative: toward the commanded side of 50 and, on the same
    side, toward the command. *)
Lemma rtau_r_range dp : 0.1 <= rtau_r dp <= 1.
Proof. destruct (rtau_r_cases dp) as [[H ->]|[[H ->]|[H ->]]]; lra. Qed.

Lemma rtau_r_mono a b : a <= b -> rtau_r b <= rtau_r a.
Proof.
  intros H. destruct (rtau_r_cases a) as [[Ha ->]|[[Ha ->]|[Ha ->]]],
    (rtau_r_cases b) as [[Hb ->]|[[Hb ->]|[Hb ->]]]; lra.
Qed.

Lemma rtau_r_continuous x : continuous rtau_r x.
Proof.
  apply continuous_ext with
    (f := fun d => 1 - 0.036 * Rmax 0 (d - 25) + 0.036 * Rmax 0 (d - 50)).
  - intros d. unfold Rmax.
    destruct (rtau_r_cases d) as [[H ->]|[[H ->]|[H ->]]];
      destruct (Rle_dec 0 (d - 25)), (Rle_dec 0 (d - 50)); lra.
  - apply (continuous_plus (V := R_NormedModule)).
    + apply (continuous_minus (V := R_NormedModule)); [apply continuous_const|].
      apply (continuous_mult (K := R_AbsRing)); [apply continuous_const|].
      apply continuous_Rmax0. apply (continuous_minus (V := R_NormedModule));
        [apply continuous_id|apply continuous_const].
    + apply (continuous_mult (K := R_AbsRing)); [apply continuous_const|].
      apply continuous_Rmax0. apply (continuous_minus (V := R_NormedModule));
        [apply continuous_id|apply continuous_const].
Qed.
