(** Equality of Dubins aircraft, relative motion. *)
From Coq Require Import String List Bool Arith ZArith Lia Reals Lra.
From Flocq Require Import Core.Core IEEE754.BinarySingleNaN.
From Verif Require Import PyBase Num Arr BaseModel Spec SpecBase XReal Float64 NumOrdLemmas ArrLemmas
  XTac Cwh Utils Rot2d SixDof Sun Integ Dubins Classes Units SpecWrap LimLemmas SpecClasses ClassLemmas EqLemmas.
Import ListNotations.
Local Open Scope R_scope.

Section D.
  Variable rd : R -> R.
  Local Notation r32 := (fun x => Fin (rd x)).
  Local Hint Extern 0 (Num xr) => exact (XR (fun x => Fin (rd x))) : typeclass_instances.
  Variable ae : xr * xr * xr * xr -> list xr.

  Lemma all_eq_true (l m : list R) : length l = length m ->
    all_eq (Ok (A1 (map Fin l))) (Ok (A1 (map Fin m))) = Ok true -> l = m.
  Proof. intros L H. destruct (all_eq_fin r32 l m L) as (b & E & Hb). rewrite E in H. injection H as ->. tauto. Qed.
  Lemma all_eq_refl (l : list R) : all_eq (Ok (A1 (map Fin l))) (Ok (A1 (map Fin l))) = Ok true.
  Proof. destruct (all_eq_fin r32 l l eq_refl) as (b & E & Hb). rewrite E. f_equal. tauto. Qed.
  Lemma num_eq_true x y : num_eq (Ok (Fin x)) (Ok (Fin y)) = Ok true -> x = y.
  Proof. cbn. intros H. injection H as H. destruct (Req_bool_spec x y); congruence. Qed.
  Lemma num_eq_refl x : num_eq (Ok (Fin x)) (Ok (Fin x)) = Ok true.
  Proof. cbn. rewrite Req_bool_true; auto. Qed.

  (** *** 3d *)
  Lemma dub3_eq_method a b x y z h g r v x' y' z' h' g' r' v' :
    is_a Dubins3dAircraftC [x; y; z; h; g; r; v] a -> is_a Dubins3dAircraftC [x'; y'; z'; h'; g'; r'; v'] b ->
    eq_method ae a b = Ok true -> [x; y; z; h; g; r; v] = [x'; y'; z'; h'; g'; r'; v'].
  Proof.
    intros [A1_ A2] [B1 B2]. unfold eq_method. rewrite A1_, isinstance_leaf, B1 by reflexivity. cbn [cls_eqb].
    intros H. pose proof (and_then_true _ H) as P. clear H.
    assert (E1 : [x; y; z] = [x'; y'; z']).
    { apply all_eq_true; auto. rewrite <- (P (all_eq (position a) (position b))) by (cbn; auto).
      unfold position. rewrite A1_, B1. unfold d3_position. rewrite A2, B2. reflexivity. }
    assert (E2 : h = h').
    { apply num_eq_true. rewrite <- (P (num_eq (d3_heading (o_ent a)) (d3_heading (o_ent b)))) by (cbn; auto 10).
      unfold d3_heading. rewrite A2, B2. reflexivity. }
    assert (E3 : g = g').
    { apply num_eq_true. rewrite <- (P (num_eq (d3_gamma (o_ent a)) (d3_gamma (o_ent b)))) by (cbn; auto 10).
      unfold d3_gamma. rewrite A2, B2. reflexivity. }
    assert (E4 : r = r').
    { apply num_eq_true. rewrite <- (P (num_eq (d3_roll (o_ent a)) (d3_roll (o_ent b)))) by (cbn; auto 10).
      unfold d3_roll. rewrite A2, B2. reflexivity. }
    assert (E5 : v = v').
    { apply num_eq_true. rewrite <- (P (num_eq (d3_v (o_ent a)) (d3_v (o_ent b)))) by (cbn; auto 10).
      unfold d3_v. rewrite A2, B2. reflexivity. }
    congruence.
  Qed.
  Lemma dub3_eq a b x y z h g r v x' y' z' h' g' r' v' :
    is_a Dubins3dAircraftC [x; y; z; h; g; r; v] a -> is_a Dubins3dAircraftC [x'; y'; z'; h'; g'; r'; v'] b ->
    py_eq ae a b = Ok true -> [x; y; z; h; g; r; v] = [x'; y'; z'; h'; g'; r'; v'].
  Proof.
    intros Ha Hb. destruct (py_eq_cases ae a b) as [-> | ->]; intros H; [eapply dub3_eq_method; eauto|].
    symmetry. eapply dub3_eq_method; eauto.
  Qed.

  (** *** 2d: the speed is compared through the velocity vector. *)
  Lemma dub2_eq_method a b x y h v x' y' h' v' :
    is_a Dubins2dAircraftC [x; y; h; v] a -> is_a Dubins2dAircraftC [x'; y'; h'; v'] b ->
    eq_method ae a b = Ok true -> [x; y; h] = [x'; y'; h'] /\ rd (v * cos h * cos 0) = rd (v' * cos h * cos 0) /\
      rd (v * sin h * cos 0) = rd (v' * sin h * cos 0).
  Proof.
    intros [A1_ A2] [B1 B2]. unfold eq_method. rewrite A1_, isinstance_leaf, B1 by reflexivity. cbn [cls_eqb].
    intros H. pose proof (and_then_true _ H) as P. clear H.
    assert (E1 : [x; y; 0 / 1] = [x'; y'; 0 / 1]).
    { apply all_eq_true; auto. rewrite <- (P (all_eq (position a) (position b))) by (cbn; auto).
      unfold position. rewrite A1_, B1. unfold d2_position. rewrite A2, B2. reflexivity. }
    assert (E2 : h = h').
    { apply num_eq_true. rewrite <- (P (num_eq (d2_heading (o_ent a)) (d2_heading (o_ent b)))) by (cbn; auto 10).
      unfold d2_heading. rewrite A2, B2. reflexivity. }
    injection E1 as -> ->. subst h'. split; [reflexivity|].
    assert (E3 : [rd (v * cos h * cos (0 / 1)); rd (v * sin h * cos (0 / 1)); rd (-1 / 1 * v * sin (0 / 1))] =
                 [rd (v' * cos h * cos (0 / 1)); rd (v' * sin h * cos (0 / 1)); rd (-1 / 1 * v' * sin (0 / 1))]).
    { apply all_eq_true; auto. rewrite <- (P (all_eq (velocity a) (velocity b))) by (cbn; auto).
      unfold velocity. rewrite A1_, B1. unfold d2_velocity, d2_v, d2_heading. rewrite A2, B2. reflexivity. }
    replace 0 with (0 / 1) by lra. injection E3; auto.
  Qed.

  (** An aircraft at rest is not even equal to itself. *)
  Lemma dub2_rest a x y h s0 s1 s2 acc : rd 0 = 0 -> is_a Dubins2dAircraftC [x; y; h; 0] a ->
    e_sdot (o_ent a) = A1 [s0; s1; s2; Fin acc] -> py_eq ae a a = Ok false.
  Proof.
    intros R0 [A1_ A2] Sd. unfold py_eq. rewrite cls_eqb_refl. cbn [negb andb]. unfold eq_method.
    rewrite A1_, isinstance_leaf, A1_ by reflexivity. cbn [cls_eqb app].
    unfold position, velocity. rewrite A1_. unfold d2_position, d2_velocity, d2_acceleration, d2_v, d2_heading.
    unfold d2_velocity, d2_v, d2_heading. rewrite A2, Sd. cbn [aidx map nth_error bind and_then].
    pose proof (all_eq_refl [rd (0 * cos h * cos (0 / 1)); rd (0 * sin h * cos (0 / 1)); rd (-1 / 1 * 0 * sin (0 / 1))]) as V.
    pose proof (all_eq_refl [x; y; 0 / 1]) as P. cbn [map] in V, P.
    unfold dubins_velocity. cbn [map nmul ncos nsin XR xmul xfun nZ n0 nlit nf32 xf32].
    replace (Fin (rd (0 * cos h * cos (0 / 1)))) with (Fin (rd (0 * cos h * cos (0 / 1)))) by reflexivity.
    rewrite V, P. cbn [bind]. unfold all_eq. cbn [bind bmap2 map amap ndiv XR xdiv].
    replace (0 * cos h * cos (0 / 1)) with 0 by ring. rewrite R0. rewrite !(Req_bool_true 0 0) by auto.
    cbn [nmul XR xmul length Nat.eqb zipw neqb xeqb bind all_true forallb andb]. reflexivity.
  Qed.
  Lemma dub3_rest a x y z h g r s0 s1 s2 s3 s4 s5 acc : rd 0 = 0 -> is_a Dubins3dAircraftC [x; y; z; h; g; r; 0] a ->
    e_sdot (o_ent a) = A1 [s0; s1; s2; s3; s4; s5; Fin acc] -> py_eq ae a a = Ok false.
  Proof.
    intros R0 [A1_ A2] Sd. unfold py_eq. rewrite cls_eqb_refl. cbn [negb andb]. unfold eq_method.
    rewrite A1_, isinstance_leaf, A1_ by reflexivity. cbn [cls_eqb app].
    unfold position, velocity. rewrite A1_. unfold d3_position, d3_velocity, d3_acceleration, d3_v, d3_heading, d3_gamma.
    unfold d3_velocity, d3_v, d3_heading, d3_gamma. rewrite A2, Sd. cbn [aslice skipn firstn Nat.sub aidx map nth_error bind and_then].
    pose proof (all_eq_refl [rd (0 * cos h * cos g); rd (0 * sin h * cos g); rd (-1 / 1 * 0 * sin g)]) as V.
    pose proof (all_eq_refl [x; y; z]) as P. cbn [map] in V, P.
    unfold dubins_velocity. cbn [map nmul ncos nsin XR xmul xfun nZ n0 nlit nf32 xf32].
    rewrite V, P. cbn [bind]. unfold all_eq. cbn [bind bmap2 map amap ndiv XR xdiv].
    replace (0 * cos h * cos g) with 0 by ring. rewrite R0. rewrite !(Req_bool_true 0 0) by auto.
    cbn [nmul XR xmul length Nat.eqb zipw neqb xeqb bind all_true forallb andb]. reflexivity.
  Qed.

  (** In motion, equal states and equal accelerations compare equal. *)
  Lemma euler_fin h g r : exists a b c d, from_euler_zyx (Fin h) (Fin g) (Fin r) = (Fin a, Fin b, Fin c, Fin d).
  Proof.
    unfold from_euler_zyx, hamilton_product. cbn. rewrite !(Req_bool_false (2 / 1) 0) by lra. cbn. eauto 10.
  Qed.
  Lemma euler_refl h g r : euler_sane ae ->
    all_eq (euler_of ae (Ok (from_euler_zyx (Fin h) (Fin g) (Fin r)))) (euler_of ae (Ok (from_euler_zyx (Fin h) (Fin g) (Fin r)))) = Ok true.
  Proof.
    intros S. destruct (euler_fin h g r) as (a & b & c & d & ->). unfold euler_of. cbn [bind].
    destruct (S a b c d) as (p & q & t & ->). exact (all_eq_refl [p; q; t]).
  Qed.

  Lemma dub3_same a b x y z h g r v s0 s1 s2 s3 s4 s5 acc s0' s1' s2' s3' s4' s5' : euler_sane ae -> v <> 0 ->
    is_a Dubins3dAircraftC [x; y; z; h; g; r; v] a -> is_a Dubins3dAircraftC [x; y; z; h; g; r; v] b ->
    e_sdot (o_ent a) = A1 [s0; s1; s2; s3; s4; s5; Fin acc] -> e_sdot (o_ent b) = A1 [s0'; s1'; s2'; s3'; s4'; s5'; Fin acc] ->
    py_eq ae a b = Ok true.
  Proof.
    intros S Hv.
    assert (G : forall a b s0 s1 s2 s3 s4 s5 s0' s1' s2' s3' s4' s5',
      is_a Dubins3dAircraftC [x; y; z; h; g; r; v] a -> is_a Dubins3dAircraftC [x; y; z; h; g; r; v] b ->
      e_sdot (o_ent a) = A1 [s0; s1; s2; s3; s4; s5; Fin acc] -> e_sdot (o_ent b) = A1 [s0'; s1'; s2'; s3'; s4'; s5'; Fin acc] ->
      eq_method ae a b = Ok true).
    { clear a b s0 s1 s2 s3 s4 s5 s0' s1' s2' s3' s4' s5'. intros a b s0 s1 s2 s3 s4 s5 s0' s1' s2' s3' s4' s5' [A1_ A2] [B1 B2] Sa Sb.
      unfold eq_method. rewrite A1_, isinstance_leaf, B1 by reflexivity. cbn [cls_eqb app].
      unfold position, velocity. rewrite A1_, B1. unfold d3_position, d3_velocity, d3_acceleration, d3_orientation, d3_v, d3_heading, d3_gamma, d3_roll.
      unfold d3_velocity, d3_v, d3_heading, d3_gamma. rewrite A2, B2, Sa, Sb. cbn [aslice skipn firstn Nat.sub aidx map nth_error bind and_then].
      pose proof (all_eq_refl [rd (v * cos h * cos g); rd (v * sin h * cos g); rd (-1 / 1 * v * sin g)]) as V.
      pose proof (all_eq_refl [x; y; z]) as P. cbn [map] in V, P.
      pose proof (all_eq_refl [acc * (rd (v * cos h * cos g) / v); acc * (rd (v * sin h * cos g) / v); acc * (rd (-1 / 1 * v * sin g) / v)]) as Ac.
      unfold dubins_velocity. cbn [map nmul ncos nsin XR xmul xfun nZ n0 nlit nf32 xf32 bmap2 ndiv xdiv].
      rewrite !(Req_bool_false v 0) by auto. cbn [bind amap map nmul XR xmul]. cbn [map] in Ac.
      rewrite V, P, Ac. cbn [bind]. rewrite euler_refl by auto. cbn [bind]. rewrite !num_eq_refl. reflexivity. }
    intros Ha Hb Sa Sb. destruct (py_eq_cases ae a b) as [-> | ->]; eauto.
  Qed.
  Lemma dub2_same a b x y h v s0 s1 s2 acc s0' s1' s2' : euler_sane ae -> v <> 0 ->
    is_a Dubins2dAircraftC [x; y; h; v] a -> is_a Dubins2dAircraftC [x; y; h; v] b ->
    e_sdot (o_ent a) = A1 [s0; s1; s2; Fin acc] -> e_sdot (o_ent b) = A1 [s0'; s1'; s2'; Fin acc] ->
    py_eq ae a b = Ok true.
  Proof.
    intros S Hv.
    assert (G : forall a b s0 s1 s2 s0' s1' s2',
      is_a Dubins2dAircraftC [x; y; h; v] a -> is_a Dubins2dAircraftC [x; y; h; v] b ->
      e_sdot (o_ent a) = A1 [s0; s1; s2; Fin acc] -> e_sdot (o_ent b) = A1 [s0'; s1'; s2'; Fin acc] ->
      eq_method ae a b = Ok true).
    { clear a b s0 s1 s2 s0' s1' s2'. intros a b s0 s1 s2 s0' s1' s2' [A1_ A2] [B1 B2] Sa Sb.
      unfold eq_method. rewrite A1_, isinstance_leaf, B1 by reflexivity. cbn [cls_eqb app].
      unfold position, velocity. rewrite A1_, B1. unfold d2_position, d2_velocity, d2_acceleration, d2_orientation, d2_v, d2_heading.
      unfold d2_velocity, d2_v, d2_heading. rewrite A2, B2, Sa, Sb. cbn [aidx map nth_error bind and_then].
      pose proof (all_eq_refl [rd (v * cos h * cos (0 / 1)); rd (v * sin h * cos (0 / 1)); rd (-1 / 1 * v * sin (0 / 1))]) as V.
      pose proof (all_eq_refl [x; y; 0 / 1]) as P. cbn [map] in V, P.
      pose proof (all_eq_refl [acc * (rd (v * cos h * cos (0 / 1)) / v); acc * (rd (v * sin h * cos (0 / 1)) / v); acc * (rd (-1 / 1 * v * sin (0 / 1)) / v)]) as Ac.
      unfold dubins_velocity. cbn [map nmul ncos nsin XR xmul xfun nZ n0 nlit nf32 xf32 bmap2 ndiv xdiv].
      rewrite !(Req_bool_false v 0) by auto. cbn [bind amap map nmul XR xmul]. cbn [map] in Ac.
      rewrite V, P, Ac. cbn [bind].
      pose proof (euler_refl h (0 / 1) (0 / 1) S) as Eu. rewrite Eu. cbn [bind]. rewrite !num_eq_refl. reflexivity. }
    intros Ha Hb Sa Sb. destruct (py_eq_cases ae a b) as [-> | ->]; eauto.
  Qed.
End D.

(** With exact casts the 2d comparison is exact. *)
Lemma dub2_eq_exact ae a b x y h v x' y' h' v' :
  is_a Dubins2dAircraftC [x; y; h; v] a -> is_a Dubins2dAircraftC [x'; y'; h'; v'] b ->
  py_eq (N := XR Fin) ae a b = Ok true -> [x; y; h; v] = [x'; y'; h'; v'].
Proof.
  assert (G : forall a b x y h v x' y' h' v',
    is_a Dubins2dAircraftC [x; y; h; v] a -> is_a Dubins2dAircraftC [x'; y'; h'; v'] b ->
    eq_method (N := XR Fin) ae a b = Ok true -> [x; y; h; v] = [x'; y'; h'; v']).
  { clear. intros a b x y h v x' y' h' v' Ha Hb H.
    destruct (dub2_eq_method (fun x => x) ae a b x y h v x' y' h' v' Ha Hb H) as (E & E1 & E2).
    rewrite cos_0, !Rmult_1_r in E1, E2. injection E as -> -> ->.
    assert (v = v'); [|congruence].
    pose proof (sin2_cos2 h') as Q. unfold Rsqr in Q.
    replace v with (v * (sin h' * sin h' + cos h' * cos h')) by (rewrite Q; ring).
    replace v' with (v' * (sin h' * sin h' + cos h' * cos h')) by (rewrite Q; ring).
    transitivity (v * sin h' * sin h' + v * cos h' * cos h'); [ring|]. rewrite E1, E2. ring. }
  intros Ha Hb. destruct (py_eq_cases (N := XR Fin) ae a b) as [-> | ->]; intros H; [eapply G; eauto|].
  symmetry. eapply G; eauto.
Qed.
