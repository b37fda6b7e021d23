(** Symmetries of the vehicles. *)
From Coq Require Import String List Bool Arith ZArith Lia Reals Lra.
From Flocq Require Import Core.Core.
From Verif Require Import PyBase Num Arr BaseModel Cwh Rot2d Utils SixDof Dubins Integ Spec SpecBase SpecWrap XReal NumOrdLemmas ArrLemmas
  BaseLemmas BaseLemmas2 BaseLemmas3 BaseLemmas4 WrapLemmas XTac SpecRk SpecCwh RkLemmas CwhLemmas LimLemmas
  SpecSixDof SpecDubins DubinsLemmas Rot2dLemmas SixDofLemmas SpecInteg IntegLemmas SpecSym SymLemmas.
Import List ListNotations.
Local Open Scope R_scope.
Local Hint Extern 0 (Num xr) => exact (XR Fin) : typeclass_instances.

(** ** Odd functions *)
Lemma clipR_opp b x : 0 <= b -> clipR (- b) b (- x) = - clipR (- b) b x.
Proof.
  intros H. unfold clipR, Rmin, Rmax. repeat destruct (Rle_dec _ _); lra.
Qed.
Lemma stopR_opp b x r : 0 < b -> stopR (- b) b (- x) (- r) = - stopR (- b) b x r.
Proof.
  intros H. unfold stopR, Rmin, Rmax. repeat destruct (Rle_dec _ _); lra.
Qed.
Lemma sa_plus a b c : same_angle a b -> same_angle (a + c) (b + c).
Proof. intros (k & ->). exists k. ring. Qed.
Lemma sa_minus a b c : same_angle (- a) b -> same_angle (- (a + c)) (b + - c).
Proof. intros (k & H). exists k. lra. Qed.
Lemma sa_trans a b c : same_angle a b -> same_angle b c -> same_angle a c.
Proof. intros (j & ->) (k & ->). exists (k + j)%Z. rewrite plus_IZR. ring. Qed.
Lemma sa_sym a b : same_angle a b -> same_angle b a.
Proof. intros (k & ->). exists (- k)%Z. rewrite opp_IZR. ring. Qed.
Lemma sa_opp a b : same_angle a b -> same_angle (- a) (- b).
Proof. intros (k & ->). exists (- k)%Z. rewrite opp_IZR. ring. Qed.
Lemma wrap_angle x : same_angle x (wrapR 0 x).
Proof. pose proof (wrapR_turns 0 x) as H. now rewrite Rplus_0_r in H. Qed.
Lemma sa_wrap_turn a b phi : same_angle (a + phi) b -> same_angle (wrapR 0 a + phi) (wrapR 0 b).
Proof.
  intros H. eapply sa_trans; [|apply wrap_angle]. eapply sa_trans; [|exact H]. apply sa_plus. apply sa_sym. apply wrap_angle.
Qed.
Lemma sa_wrap_opp a b : same_angle (- a) b -> same_angle (- wrapR 0 a) (wrapR 0 b).
Proof.
  intros H. eapply sa_trans; [|apply wrap_angle]. eapply sa_trans; [|exact H]. apply sa_opp. apply sa_sym. apply wrap_angle.
Qed.
Lemma clip_inf x : clip1 (Fin x) NInf PInf = Fin x.
Proof. reflexivity. Qed.

(** Two-element controls with finite limits. *)
Lemma clip_two a b l0 l1 h0 h1 : np_clip (A1 (map Fin [a; b])) (A1 [Fin l0; Fin l1]) (A1 [Fin h0; Fin h1]) =
  Ok (A1 (map Fin [clipR l0 h0 a; clipR l1 h1 b])).
Proof. rewrite np_clip_list by reflexivity. cbn [expand clip_list map length]. rewrite !clip1_Fin. reflexivity. Qed.
Lemma clip_three a b c l0 l1 l2 h0 h1 h2 :
  np_clip (A1 (map Fin [a; b; c])) (A1 [Fin l0; Fin l1; Fin l2]) (A1 [Fin h0; Fin h1; Fin h2]) =
  Ok (A1 (map Fin [clipR l0 h0 a; clipR l1 h1 b; clipR l2 h2 c])).
Proof. rewrite np_clip_list by reflexivity. cbn [expand clip_list map length]. rewrite !clip1_Fin. reflexivity. Qed.
Lemma oob_ok (u lo hi : arr xr) : fits lo u -> fits hi u -> is_ok (out_of_bounds u lo hi) = true.
Proof. intros H1 H2. destruct (out_of_bounds_spec u lo hi H1 H2) as (b & -> & _). reflexivity. Qed.

(** ** Dubins2dAircraft *)
Lemma d2_limits v0 v1 k me x y hd v :
  (r <- np_clip (A1 (map Fin [x; y; hd; v])) (d_min (dubins2d_dyn (Fin v0) (Fin v1) k me)) (d_max (dubins2d_dyn (Fin v0) (Fin v1) k me)) ;;
   wrap_angles (dubins2d_dyn (Fin v0) (Fin v1) k me) r) = Ok (A1 (map Fin [x; y; wrapR 0 hd; clipR v0 v1 v])).
Proof.
  cbn [dubins2d_dyn d_min d_max map nf32 XR xf32 nninf npinf]. rewrite np_clip_list by reflexivity.
  cbn [expand clip_list map length bind]. rewrite !clip_inf, clip1_Fin.
  erewrite wrap_angles_list; [|reflexivity|reflexivity].
  assert (EW : [NaN; NaN; Fin 0; NaN] = map nf32 [nnan; nnan; n0; nnan]) by (rewrite n0_Fin; reflexivity).
  rewrite <- EW. cbn [wrap_list nisnan XR xisnan]. rewrite wrap1_Fin. reflexivity.
Qed.
Lemma rot_cos phi hd hd' : same_angle (hd + phi) hd' -> cos hd' = cos phi * cos hd - sin phi * sin hd /\ sin hd' = sin phi * cos hd + cos phi * sin hd.
Proof.
  intros H. destruct (turn_cos _ _ H) as (<- & <-). rewrite cos_plus, sin_plus. split; ring.
Qed.
Lemma mir_cos hd hd' : same_angle (- hd) hd' -> cos hd' = cos hd /\ sin hd' = - sin hd.
Proof. intros H. destruct (turn_cos _ _ H) as (<- & <-). rewrite cos_neg, sin_neg. auto. Qed.

Definition same2 (k : nat) : vrel := fun u u' => length u = k /\ u' = u.
Lemma dubins2d_turn_symmetry phi v0 v1 k me h0 h1 a0 a1 :
  symmetry (dubins2d_dyn (Fin v0) (Fin v1) k me) (A1 [Fin h0; Fin a0]) (A1 [Fin h1; Fin a1])
    (same2 2) (turned2 phi) (turned2 phi) (turned2_rate phi).
Proof.
  constructor.
  - intros t s s' u u' (x & y & hd & v & hd' & -> & -> & Ha) (Lu & ->).
    destruct u as [|u0 [|u1 []]]; try discriminate. do 4 eexists. split; [apply clip_two|]. split; [apply clip_two|].
    split; [apply (dubins2d_csd (fun x => x))|]. split; [apply (dubins2d_csd (fun x => x))|].
    destruct (rot_cos _ _ _ Ha) as (-> & ->). do 4 eexists. split; [reflexivity|]. unfold rot_x, rot_y.
    repeat (apply f_equal2; [ring|]). reflexivity.
  - intros u u' (Lu & ->). destruct u as [|u0 [|u1 []]]; try discriminate. split; apply oob_ok; reflexivity.
  - intros s s' r r' (x & y & hd & v & hd' & -> & -> & _) (a & b & c & d & -> & ->). split; reflexivity.
  - intros s s' r r' h (x & y & hd & v & hd' & -> & -> & Ha) (a & b & c & d & -> & ->).
    cbn. exists (x + h * a), (y + h * b), (hd + h * c), (v + h * d), (hd' + h * c). split; [reflexivity|].
    split; [unfold rot_x, rot_y; repeat (apply f_equal2; [ring|]); reflexivity|].
    replace (hd + h * c + phi) with ((hd + phi) + h * c) by ring. apply sa_plus. exact Ha.
  - intros s s' (x & y & hd & v & hd' & -> & -> & Ha). do 2 eexists. split; [apply d2_limits|]. split; [apply d2_limits|].
    do 5 eexists. split; [reflexivity|]. split; [reflexivity|]. apply sa_wrap_turn. exact Ha.
Qed.
Lemma dubins2d_mirror_symmetry v0 v1 k me b a0 a1 : 0 <= b ->
  symmetry (dubins2d_dyn (Fin v0) (Fin v1) k me) (A1 [Fin (- b); Fin a0]) (A1 [Fin b; Fin a1])
    (flipped [-1; 1]) mirrored2 mirrored2 (flipped [1; -1; -1; 1]).
Proof.
  intros Hb. constructor.
  - intros t s s' u u' (x & y & hd & v & hd' & -> & -> & Ha) (Lu & ->).
    destruct u as [|u0 [|u1 []]]; try discriminate. cbn [flip zipw]. do 4 eexists. split; [apply clip_two|]. split; [apply clip_two|].
    split; [apply (dubins2d_csd (fun x => x))|]. split; [apply (dubins2d_csd (fun x => x))|].
    destruct (mir_cos _ _ Ha) as (-> & ->). split; [reflexivity|]. cbn [flip zipw].
    replace (-1 * u0) with (- u0) by ring. rewrite clipR_opp by exact Hb. replace (1 * u1) with u1 by ring.
    repeat (apply f_equal2; [ring|]). reflexivity.
  - intros u u' (Lu & ->). destruct u as [|u0 [|u1 []]]; try discriminate. split; apply oob_ok; reflexivity.
  - intros s s' r r' (x & y & hd & v & hd' & -> & -> & _) (L & ->). destruct r as [|? [|? [|? [|? []]]]]; try discriminate. split; reflexivity.
  - intros s s' r r' h (x & y & hd & v & hd' & -> & -> & Ha) (L & ->). destruct r as [|a [|c [|d [|e []]]]]; try discriminate.
    cbn. do 5 eexists. split; [reflexivity|]. split; [repeat (apply f_equal2; [try ring; reflexivity|]); reflexivity|].
    replace (h * (-1 * d)) with (- (h * d)) by ring. apply sa_minus. exact Ha.
  - intros s s' (x & y & hd & v & hd' & -> & -> & Ha). do 2 eexists. split; [apply d2_limits|]. split; [apply d2_limits|].
    do 5 eexists. split; [reflexivity|]. split; [reflexivity|]. apply sa_wrap_opp. exact Ha.
Qed.

(** ** Dubins3dAircraft, away from the singularities of the turn rate *)
Definition flying : list R -> Prop := fun s => match s with [_; _; _; _; _; ro; v] => - (PI / 2) < ro < PI / 2 /\ 0 < v | _ => False end.
Definition both (S : vrel) (P : list R -> Prop) : vrel := fun s s' => S s s' /\ P s /\ P s'.
Lemma d3_limits g v0 v1 g0 g1 r0 r1 k me x y z hd ga ro v :
  (r <- np_clip (A1 (map Fin [x; y; z; hd; ga; ro; v])) (d_min (dubins3d_dyn g (Fin v0) (Fin v1) (Fin g0) (Fin g1) (Fin r0) (Fin r1) k me))
     (d_max (dubins3d_dyn g (Fin v0) (Fin v1) (Fin g0) (Fin g1) (Fin r0) (Fin r1) k me)) ;;
   wrap_angles (dubins3d_dyn g (Fin v0) (Fin v1) (Fin g0) (Fin g1) (Fin r0) (Fin r1) k me) r) =
  Ok (A1 (map Fin [x; y; z; wrapR 0 hd; wrapR 0 (clipR g0 g1 ga); wrapR 0 (clipR r0 r1 ro); clipR v0 v1 v])).
Proof.
  cbn [dubins3d_dyn d_min d_max map nf32 XR xf32 nninf npinf]. rewrite np_clip_list by reflexivity.
  cbn [expand clip_list map length bind]. rewrite !clip_inf, !clip1_Fin.
  erewrite wrap_angles_list; [|reflexivity|reflexivity].
  assert (EW : [NaN; NaN; NaN; Fin 0; Fin 0; Fin 0; NaN] = map nf32 [nnan; nnan; nnan; n0; n0; n0; nnan]) by (rewrite n0_Fin; reflexivity).
  rewrite <- EW. cbn [wrap_list nisnan XR xisnan]. rewrite !wrap1_Fin. reflexivity.
Qed.
Lemma clip_in lo hi x a b : lo <= hi -> a < lo -> hi < b -> a < clipR lo hi x < b.
Proof. intros H1 H2 H3. pose proof (clipR_between lo hi x H1). lra. Qed.
Lemma wrap_in x : - (PI / 2) < x < PI / 2 -> wrapR 0 x = x.
Proof. intros H. pose proof PI_RGT_0. rewrite wrapR_id by lra. ring. Qed.
Lemma cos_ok ro : - (PI / 2) < ro < PI / 2 -> cos ro <> 0.
Proof. intros H. apply Rgt_not_eq. apply cos_gt_0; lra. Qed.
Lemma turn_rate_opp g v ro : turn_rate g v (- ro) = - turn_rate g v ro.
Proof. unfold turn_rate. rewrite tan_neg. unfold Rdiv. ring. Qed.

Lemma dubins3d_turn_symmetry phi g v0 v1 g0 g1 r0 r1 k me a0 a1 b0 b1 c0 c1 : 0 < v0 <= v1 -> - (PI / 2) < r0 <= r1 -> r1 < PI / 2 ->
  symmetry (dubins3d_dyn (Fin g) (Fin v0) (Fin v1) (Fin g0) (Fin g1) (Fin r0) (Fin r1) k me) (A1 [Fin a0; Fin b0; Fin c0]) (A1 [Fin a1; Fin b1; Fin c1])
    (same2 3) (both (turned3 phi) flying) (turned3 phi) (turned3_rate phi).
Proof.
  intros Hv Hr Hr1. constructor.
  - intros t s s' u u' ((x & y & z & hd & ga & ro & v & hd' & -> & -> & Ha) & (Hro & Hvv) & _) (Lu & ->).
    destruct u as [|u0 [|u1 [|u2 []]]]; try discriminate. do 4 eexists. split; [apply clip_three|]. split; [apply clip_three|].
    split; [apply (dubins3d_csd (fun x => x)); [lra|apply cos_ok; exact Hro]|].
    split; [apply (dubins3d_csd (fun x => x)); [lra|apply cos_ok; exact Hro]|].
    destruct (rot_cos _ _ _ Ha) as (-> & ->). do 7 eexists. split; [reflexivity|]. unfold rot_x, rot_y.
    repeat (apply f_equal2; [try ring; reflexivity|]). reflexivity.
  - intros u u' (Lu & ->). destruct u as [|u0 [|u1 [|u2 []]]]; try discriminate. split; apply oob_ok; reflexivity.
  - intros s s' q q' ((x & y & z & hd & ga & ro & v & hd' & -> & -> & _) & _) (a & b & c & d & e & f & h & -> & ->). split; reflexivity.
  - intros s s' q q' h ((x & y & z & hd & ga & ro & v & hd' & -> & -> & Ha) & _) (a & b & c & d & e & f & i & -> & ->).
    cbn. exists (x + h * a), (y + h * b), (z + h * c), (hd + h * d), (ga + h * e), (ro + h * f), (v + h * i), (hd' + h * d). split; [reflexivity|].
    split; [unfold rot_x, rot_y; repeat (apply f_equal2; [ring|]); reflexivity|].
    replace (hd + h * d + phi) with ((hd + phi) + h * d) by ring. apply sa_plus. exact Ha.
  - intros s s' (x & y & z & hd & ga & ro & v & hd' & -> & -> & Ha). do 2 eexists. split; [apply d3_limits|]. split; [apply d3_limits|].
    pose proof (clip_in r0 r1 ro (- (PI / 2)) (PI / 2) (proj2 Hr) (proj1 Hr) Hr1) as Hc. pose proof (clipR_between v0 v1 v (proj2 Hv)) as Hcv.
    split.
    + do 8 eexists. split; [reflexivity|]. split; [reflexivity|]. apply sa_wrap_turn. exact Ha.
    + cbn [flying]. rewrite wrap_in by exact Hc. lra.
Qed.
Lemma dubins3d_mirror_symmetry g v0 v1 g0 g1 r k me a0 a1 b c0 c1 : 0 < v0 <= v1 -> 0 < r < PI / 2 -> 0 <= b ->
  symmetry (dubins3d_dyn (Fin g) (Fin v0) (Fin v1) (Fin g0) (Fin g1) (Fin (- r)) (Fin r) k me) (A1 [Fin a0; Fin (- b); Fin c0]) (A1 [Fin a1; Fin b; Fin c1])
    (flipped [1; -1; 1]) (both mirrored3 flying) mirrored3 (flipped [1; -1; 1; -1; 1; -1; 1]).
Proof.
  intros Hv Hr Hb. constructor.
  - intros t s s' u u' ((x & y & z & hd & ga & ro & v & hd' & -> & -> & Ha) & (Hro & Hvv) & (Hro' & _)) (Lu & ->).
    destruct u as [|u0 [|u1 [|u2 []]]]; try discriminate. cbn [flip zipw]. do 4 eexists. split; [apply clip_three|]. split; [apply clip_three|].
    split; [apply (dubins3d_csd (fun x => x)); [lra|apply cos_ok; exact Hro]|].
    split; [apply (dubins3d_csd (fun x => x)); [lra|apply cos_ok; exact Hro']|].
    destruct (mir_cos _ _ Ha) as (-> & ->). split; [reflexivity|]. cbn [flip zipw].
    replace (-1 * u1) with (- u1) by ring. rewrite clipR_opp by exact Hb. rewrite stopR_opp by lra. rewrite turn_rate_opp.
    replace (1 * u0) with u0 by ring. replace (1 * u2) with u2 by ring.
    repeat (apply f_equal2; [ring|]). reflexivity.
  - intros u u' (Lu & ->). destruct u as [|u0 [|u1 [|u2 []]]]; try discriminate. split; apply oob_ok; reflexivity.
  - intros s s' q q' ((x & y & z & hd & ga & ro & v & hd' & -> & -> & _) & _) (L & ->).
    destruct q as [|? [|? [|? [|? [|? [|? [|? []]]]]]]]; try discriminate. split; reflexivity.
  - intros s s' q q' h ((x & y & z & hd & ga & ro & v & hd' & -> & -> & Ha) & _) (L & ->).
    destruct q as [|a [|c [|d [|e [|f [|i [|j []]]]]]]]; try discriminate. cbn.
    do 8 eexists. split; [reflexivity|]. split; [repeat (apply f_equal2; [try ring; reflexivity|]); reflexivity|].
    replace (h * (-1 * e)) with (- (h * e)) by ring. apply sa_minus. exact Ha.
  - intros s s' (x & y & z & hd & ga & ro & v & hd' & -> & -> & Ha). do 2 eexists. split; [apply d3_limits|]. split; [apply d3_limits|].
    pose proof (clipR_between v0 v1 v (proj2 Hv)) as Hcv. rewrite clipR_opp by lra.
    assert (Hc : - (PI / 2) < clipR (- r) r ro < PI / 2) by (apply clip_in; lra).
    rewrite (wrap_in (clipR (- r) r ro)), (wrap_in (- clipR (- r) r ro)) by lra. split.
    + do 8 eexists. split; [reflexivity|]. split; [reflexivity|]. apply sa_wrap_opp. exact Ha.
    + cbn [flying]. lra.
Qed.

(** ** Exact sign changes *)
Lemma flip_compatible sg tg : length sg = length tg -> (sg = tg) -> compatible (flipped sg) (flipped tg).
Proof.
  intros _ ->. assert (FL : forall tg s, length s = length tg -> length (flip tg s) = length s).
  { intros a s L. unfold flip. rewrite zipw_length; congruence. }
  split.
  - intros s s' k k' (L1 & ->) (L2 & ->). rewrite !FL by assumption. split; congruence.
  - intros s s' k k' c (L1 & ->) (L2 & ->). split.
    + rewrite vaxpy_len, L1, L2. apply Nat.min_id.
    + revert s k L1 L2. induction tg as [|g tg IH]; intros [|x s] [|y k] L1 L2; try discriminate; [reflexivity|].
      cbn. apply f_equal2; [ring|]. apply IH; cbn in *; lia.
Qed.
Lemma plain_limits (d : dyn xr) l : d_min d = no_min -> d_max d = no_max -> d_wrap d = None ->
  (r <- np_clip (A1 (map Fin l)) (d_min d) (d_max d) ;; wrap_angles d r) = Ok (A1 (map Fin l)).
Proof.
  intros -> -> W. unfold wrap_angles. rewrite W. unfold np_clip, no_min, no_max. cbn [bmap2 bind]. do 2 f_equal.
  rewrite map_map. rewrite <- (map_id (map Fin l)) at 2. rewrite !map_map. apply map_ext. reflexivity.
Qed.
Lemma clip_flip b sg u : 0 <= b -> Forall (fun g => g = 1 \/ g = -1) sg -> length u = length sg ->
  map (clipR (- b) b) (flip sg u) = flip sg (map (clipR (- b) b) u).
Proof.
  intros Hb F. revert u. induction F as [|g sg Hg F IH]; intros [|x u] L; try discriminate; [reflexivity|].
  unfold flip in *. cbn [zipw map]. rewrite IH by (cbn in L; lia). apply f_equal2; [|reflexivity].
  destruct Hg as [->| ->]; [now rewrite !Rmult_1_l|]. replace (-1 * x) with (- x) by ring. rewrite clipR_opp by exact Hb. ring.
Qed.

Lemma cwh_mirror_symmetry m n k me d : m <> 0 -> cwh_dyn (Fin m) (Fin n) k me = Ok d ->
  symmetry d (A0 (Fin (-1))) (A0 (Fin 1)) (flipped [1; 1; -1]) (flipped [1; 1; -1; 1; 1; -1]) (flipped [1; 1; -1; 1; 1; -1]) (flipped [1; 1; -1; 1; 1; -1]).
Proof.
  intros Hm E. destruct (cwh_plain _ _ _ _ _ _ E) as (H1 & H2 & H3 & H4 & H5 & _).
  destruct (flip_compatible [1; 1; -1; 1; 1; -1] [1; 1; -1; 1; 1; -1] eq_refl eq_refl) as (C1 & C2).
  constructor.
  - intros t s s' u u' (Ls & ->) (Lu & ->).
    destruct u as [|u0 [|u1 [|u2 []]]]; try discriminate. destruct s as [|x [|y [|z [|a [|b [|c []]]]]]]; try discriminate.
    do 2 eexists. exists [a; b; c; 3 * n^2 * x + 2 * n * b + clipR (-1) 1 u0 / m; - 2 * n * a + clipR (-1) 1 u1 / m; - n^2 * z + clipR (-1) 1 u2 / m]. eexists.
    split; [apply np_clip_scalar|]. split; [apply np_clip_scalar|].
    split; [apply (cwh_csd Fin m n k me d Hm E)|]. split; [|split; [reflexivity|reflexivity]].
    cbn [flip zipw map]. etransitivity; [apply (cwh_csd Fin m n k me d Hm E)|]. do 2 f_equal.
    change (-1) with (- (1)). cbn [map].
    replace (clipR (- (1)) 1 (- (1) * u2)) with (- clipR (- (1)) 1 u2) by (rewrite <- clipR_opp by lra; f_equal; ring).
    replace (clipR (- (1)) 1 (1 * u0)) with (clipR (- (1)) 1 u0) by (f_equal; ring).
    replace (clipR (- (1)) 1 (1 * u1)) with (clipR (- (1)) 1 u1) by (f_equal; ring).
    fin_list; field; exact Hm.
  - intros u u' (Lu & ->). split; apply oob_ok; exact I.
  - intros s s' q q' S1 S2. exact (C1 _ _ _ _ S1 S2).
  - exact C2.
  - intros s s' S1. do 2 eexists. split; [apply plain_limits; assumption|]. split; [apply plain_limits; assumption|]. exact S1.
Qed.
