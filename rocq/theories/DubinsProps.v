(** Corollaries for the Dubins aircraft in the form of the properties. *)
From Coq Require Import String List Bool Arith ZArith Lia Reals Lra.
From Coquelicot Require Import Coquelicot.
From Flocq Require Import Core.Core IEEE754.BinarySingleNaN.
From Verif Require Import PyBase Num Arr BaseModel Cwh Utils SixDof Dubins Spec SpecBase SpecWrap XReal Float64 NumOrdLemmas ArrLemmas
  BaseLemmas BaseLemmas2 BaseLemmas3 BaseLemmas4 WrapLemmas XTac SpecRk SpecCwh RkLemmas CwhLemmas LimLemmas
  SpecSixDof SpecDubins DubinsLemmas.
Import List ListNotations.
Local Open Scope R_scope.

(** ** Speed limits, any arithmetic *)
Section G.
  Context {T : Type} {N : Num T} {O : NumOrd T}.

  Lemma clip_limit_at (n m : arr T) lo hi i x l u : np_clip n lo hi = Ok m ->
    bnth m i = Some x -> bnth lo i = Some l -> bnth hi i = Some u -> nleb l u = true ->
    nisnan x = true \/ (nleb l x = true /\ nleb x u = true).
  Proof.
    intros C M L U H. pose proof (bnth_clip _ _ _ _ i C) as Q. rewrite M, L, U in Q.
    destruct (bnth n i) as [y|]; [|discriminate]. injection Q as ->.
    destruct (nisnan (clip1 y l u)) eqn:E; [left; reflexivity|right].
    assert (Ny : nisnan y = false).
    { destruct (nisnan y) eqn:Ey; auto. unfold clip1, np_max_clip in E. rewrite Ey in E. unfold np_min_clip in E. rewrite Ey in E. congruence. }
    assert (Nl : nisnan l = false) by (destruct (nisnan l) eqn:El; auto; rewrite nan_leb_l in H by auto; discriminate).
    assert (Nu : nisnan u = false) by (destruct (nisnan u) eqn:Eu; auto; rewrite nan_leb_r in H by auto; discriminate).
    revert E. unfold clip1, np_max_clip, np_min_clip. rewrite Ny.
    destruct (nltb l y) eqn:E1.
    - rewrite Ny. destruct (nltb y u) eqn:E2; intros _.
      + rewrite !leb_ltb by auto. rewrite (ltb_asym _ _ E1), (ltb_asym _ _ E2). auto.
      + split; [exact H|]. rewrite leb_ltb by auto. rewrite ltb_irrefl. reflexivity.
    - rewrite Nl. destruct (nltb l u) eqn:E2; intros _.
      + split; [rewrite leb_ltb, ltb_irrefl by auto; reflexivity|exact H].
      + split; [exact H|]. rewrite leb_ltb, ltb_irrefl by auto. reflexivity.
  Qed.

  Lemma step_limit_at (w : world T) e h a i x l u : o_res (entity_step w e h a) = Ok tt ->
    bnth (e_state (o_entity (entity_step w e h a))) i = Some x ->
    bnth (d_min (e_dyn e)) i = Some l -> bnth (d_max (e_dyn e)) i = Some u -> nleb l u = true ->
    (forall c z, d_wrap (e_dyn e) = Some c -> bnth c i = Some z -> nisnan z = true) ->
    nisnan x = true \/ (nleb l x = true /\ nleb x u = true).
  Proof.
    intros H Hx Hl Hu L NW.
    destruct (entity_step_ok _ _ _ _ H) as (c & c' & tr & _ & _ & D & _).
    destruct (dyn_step_inv _ _ _ _ _ _ _ _ _ D) as (n & m & _ & Cl & Wr).
    pose proof (wrap_angles_at _ _ _ i Wr) as Q.
    assert (M : bnth m i = Some x).
    { destruct (d_wrap (e_dyn e)) as [cc|] eqn:Ew; [|congruence].
      rewrite Hx in Q. destruct (bnth m i) as [y|]; [|discriminate].
      destruct (bnth cc i) as [z|] eqn:Ez; [|discriminate].
      rewrite (NW cc z eq_refl Ez) in Q. congruence. }
    eapply clip_limit_at; eassumption.
  Qed.

  Lemma run_limit_at (w : world T) e acts e' i x l u : acts <> [] -> run w e acts = Ok e' ->
    bnth (e_state e') i = Some x ->
    bnth (d_min (e_dyn e)) i = Some l -> bnth (d_max (e_dyn e)) i = Some u -> nleb l u = true ->
    (forall c z, d_wrap (e_dyn e) = Some c -> bnth c i = Some z -> nisnan z = true) ->
    nisnan x = true \/ (nleb l x = true /\ nleb x u = true).
  Proof.
    intros Ne H Hx Hl Hu L NW. destruct (run_last _ _ _ _ Ne H) as (e1 & h & a & (Cd & _) & R & ->).
    rewrite <- Cd in *. eapply step_limit_at; eassumption.
  Qed.

  Lemma dubins2d_speed (w : world T) v_min v_max samples method e acts e' v :
    nisnan (nf32 (nnan : T)) = true ->
    e_dyn e = dubins2d_dyn v_min v_max samples method -> nleb (nf32 v_min) (nf32 v_max) = true ->
    acts <> [] -> run w e acts = Ok e' -> d2_v e' = Ok v ->
    nisnan v = true \/ (nleb (nf32 v_min) v = true /\ nleb v (nf32 v_max) = true).
  Proof.
    intros Nn D L Ne H V.
    assert (B : bnth (e_state e') 3 = Some v).
    { unfold d2_v, aidx in V. destruct (e_state e') as [|[|? [|? l]]]; try discriminate. destruct l as [|? [|? l]]; try discriminate.
      cbn in *. congruence. }
    eapply run_limit_at with (i := 3%nat); try eassumption; rewrite D; try reflexivity.
    intros c z Q. injection Q as <-. cbn. intros Q. injection Q as <-. exact Nn.
  Qed.
  Lemma dubins3d_speed (w : world T) g v_min v_max g_min g_max r_min r_max samples method e acts e' v :
    nisnan (nf32 (nnan : T)) = true ->
    e_dyn e = dubins3d_dyn g v_min v_max g_min g_max r_min r_max samples method -> nleb (nf32 v_min) (nf32 v_max) = true ->
    acts <> [] -> run w e acts = Ok e' -> d3_v e' = Ok v ->
    nisnan v = true \/ (nleb (nf32 v_min) v = true /\ nleb v (nf32 v_max) = true).
  Proof.
    intros Nn D L Ne H V.
    assert (B : bnth (e_state e') 6 = Some v).
    { unfold d3_v, aidx in V. destruct (e_state e') as [|[|? [|? l]]]; try discriminate. destruct l as [|? [|? [|? [|? [|? l]]]]]; try discriminate.
      cbn in *. congruence. }
    eapply run_limit_at with (i := 6%nat); try eassumption; rewrite D; try reflexivity.
    intros c z Q. injection Q as <-. cbn. intros Q. injection Q as <-. exact Nn.
  Qed.
End G.

Section X.
  Variable rd : R -> R.
  Local Hint Extern 0 (Num xr) => exact (XR (fun x => Fin (rd x))) : typeclass_instances.

  (** ** Displacement *)
  Definition speed_inv (D : dyn xr) (i : nat) (lo hi : R) (e : entity xr) : Prop :=
    e_dyn e = D /\ forall v, bnth (e_state e) i = Some v -> v = NaN \/ exists r, v = Fin r /\ lo <= r <= hi.

  Lemma speed_step (w : world xr) D i lo hi e h a :
    bnth (d_min D) i = Some (Fin lo) -> bnth (d_max D) i = Some (Fin hi) -> lo <= hi ->
    (forall c z, d_wrap D = Some c -> bnth c i = Some z -> z = NaN) ->
    e_dyn e = D -> o_res (entity_step w e h a) = Ok tt -> speed_inv D i lo hi (o_entity (entity_step w e h a)).
  Proof.
    intros L U Le W E R. split.
    - destruct (entity_step_config w e h a) as (C & _). rewrite C. exact E.
    - intros v Hv. destruct (step_limit_at w e h a i v (Fin lo) (Fin hi)) as [Q|[Q1 Q2]]; try assumption; try (rewrite E; assumption).
      + cbn. apply Rle_bool_true. exact Le.
      + rewrite E. intros c z C Z. rewrite (W _ _ C Z). reflexivity.
      + left. destruct v; try discriminate. reflexivity.
      + right. destruct v; cbn in Q1, Q2; try discriminate. exists r. split; [reflexivity|].
        revert Q1 Q2. destruct (Rle_bool_spec lo r), (Rle_bool_spec r hi); try discriminate. auto.
  Qed.

  Definition pos2 (e : entity xr) (p : vec) : Prop := d2_position e = Ok (A1 (map Fin (vec_list p))).
  Definition pos3 (e : entity xr) (p : vec) : Prop := d3_position e = Ok (A1 (map Fin (vec_list p))).
  Lemma pos2_at e p : pos2 e p ->
    bnth (e_state e) 0 = Some (Fin (fst (fst p))) /\ bnth (e_state e) 1 = Some (Fin (snd (fst p))) /\ snd p = 0.
  Proof.
    destruct p as [[x y] z]. unfold pos2, d2_position, aidx. destruct (e_state e) as [|[|a [|b l]]]; try discriminate. cbn.
    intros Q. injection Q as -> -> Z. repeat split; auto. lra.
  Qed.
  Lemma pos3_at e p : pos3 e p ->
    bnth (e_state e) 0 = Some (Fin (fst (fst p))) /\ bnth (e_state e) 1 = Some (Fin (snd (fst p))) /\
    bnth (e_state e) 2 = Some (Fin (snd p)).
  Proof.
    destruct p as [[x y] z]. unfold pos3, d3_position, aslice. destruct (e_state e) as [|[|a [|b [|c l]]]]; try discriminate. cbn.
    intros Q. injection Q as -> -> ->. auto.
  Qed.

  Lemma sq_bound lo hi v : - hi <= lo -> lo <= v <= hi -> v * v <= hi ^ 2.
  Proof. intros. nra. Qed.

  Lemma dubins2d_disp (w : world xr) v_min v_max samples acts :
    let D := dubins2d_dyn (Fin v_min) (Fin v_max) samples "Euler" in
    - rd v_max <= rd v_min <= rd v_max ->
    forall e e' p', speed_inv D 3 (rd v_min) (rd v_max) e -> run w e (fin_acts acts) = Ok e' -> pos2 e' p' ->
      exists p, pos2 e p /\ norm3 (sub3 p' p) <= rd v_max * duration acts.
  Proof.
    intros D HV. apply displacement.
    - intros e h a p' [E I] R P. apply pos2_at in P. destruct P as (P0 & P1 & P2).
      destruct (euler_free rd w e h a 0 _ ltac:(rewrite E; reflexivity) R ltac:(rewrite E; reflexivity) ltac:(rewrite E; reflexivity)
        ltac:(rewrite E; reflexivity) ltac:(rewrite E; reflexivity) ltac:(rewrite E; intros c Q; injection Q as <-; reflexivity) P0)
        as (u & raw & hh & x & r & Er & Eh & X & Rr & Q0).
      destruct (euler_free rd w e h a 1 _ ltac:(rewrite E; reflexivity) R ltac:(rewrite E; reflexivity) ltac:(rewrite E; reflexivity)
        ltac:(rewrite E; reflexivity) ltac:(rewrite E; reflexivity) ltac:(rewrite E; intros c Q; injection Q as <-; reflexivity) P1)
        as (u' & raw' & hh' & y & r' & Er' & Eh' & Y & Rr' & Q1).
      assert (hh' = hh) by congruence. subst hh'. rewrite E in Er, Er'.
      destruct (dubins2d_raw_inv _ _ _ _ _ _ _ _ _ Er) as (x1 & y1 & hd & v & S & F0 & _).
      destruct (dubins2d_raw_inv _ _ _ _ _ _ _ _ _ Er') as (x2 & y2 & hd2 & v2 & S' & _ & F1).
      rewrite S in S'. injection S' as <- <- <- <-.
      destruct (F0 _ Rr) as (c & vv & -> & -> & ->). destruct (F1 _ Rr') as (c' & vv' & Ec & Ev & ->).
      injection Ec as <-. injection Ev as <-.
      rewrite S in X, Y. injection X as ->. injection Y as ->.
      exists (x, y, 0), (vv * cos c, vv * sin c, 0), hh. split; [|split; [exact Eh|split]].
      + unfold pos2, d2_position. rewrite S. cbn. fin_list; lra.
      + destruct p' as [[a0 b0] c0]. cbn [fst snd] in *. subst. unfold add3, scale3. repeat (apply (f_equal2 pair)); ring.
      + destruct (I (Fin vv)) as [Q|(q & Q & B)]; [rewrite S; reflexivity|discriminate|]. injection Q as <-.
        pose proof (sin2_cos2 c) as SC. unfold Rsqr in SC. cbn.
        replace (vv * cos c * (vv * cos c) + vv * sin c * (vv * sin c) + 0 * 0) with (vv * vv * (sin c * sin c + cos c * cos c)) by ring.
        rewrite SC. pose proof (sq_bound _ _ _ (proj1 HV) B). lra.
    - intros e h a [E I] R. apply (speed_step w D); try assumption; try reflexivity; try lra.
      intros c z Q. injection Q as <-. cbn. congruence.
    - lra.
  Qed.

  Lemma dubins3d_disp (w : world xr) g v_min v_max g_min g_max r_min r_max samples acts :
    let D := dubins3d_dyn g (Fin v_min) (Fin v_max) g_min g_max r_min r_max samples "Euler" in
    - rd v_max <= rd v_min <= rd v_max ->
    forall e e' p', speed_inv D 6 (rd v_min) (rd v_max) e -> run w e (fin_acts acts) = Ok e' -> pos3 e' p' ->
      exists p, pos3 e p /\ norm3 (sub3 p' p) <= rd v_max * duration acts.
  Proof.
    intros D HV. apply displacement.
    - intros e h a p' [E I] R P. apply pos3_at in P. destruct P as (P0 & P1 & P2).
      destruct (euler_free rd w e h a 0 _ ltac:(rewrite E; reflexivity) R ltac:(rewrite E; reflexivity) ltac:(rewrite E; reflexivity)
        ltac:(rewrite E; reflexivity) ltac:(rewrite E; reflexivity) ltac:(rewrite E; intros c Q; injection Q as <-; reflexivity) P0)
        as (u & raw & hh & x & r & Er & Eh & X & Rr & Q0).
      destruct (euler_free rd w e h a 1 _ ltac:(rewrite E; reflexivity) R ltac:(rewrite E; reflexivity) ltac:(rewrite E; reflexivity)
        ltac:(rewrite E; reflexivity) ltac:(rewrite E; reflexivity) ltac:(rewrite E; intros c Q; injection Q as <-; reflexivity) P1)
        as (u' & raw' & hh' & y & r' & Er' & Eh' & Y & Rr' & Q1).
      destruct (euler_free rd w e h a 2 _ ltac:(rewrite E; reflexivity) R ltac:(rewrite E; reflexivity) ltac:(rewrite E; reflexivity)
        ltac:(rewrite E; reflexivity) ltac:(rewrite E; reflexivity) ltac:(rewrite E; intros c Q; injection Q as <-; reflexivity) P2)
        as (u2 & raw2 & hh2 & z & r2 & Er2 & Eh2 & Z & Rr2 & Q2).
      assert (hh' = hh) by congruence. assert (hh2 = hh) by congruence. subst hh' hh2. rewrite E in Er, Er', Er2.
      destruct (dubins3d_raw_inv _ _ _ _ _ _ _ _ _ _ _ _ _ _ Er) as (x1 & y1 & z1 & hd & ga & ro & v & S & F0 & _).
      destruct (dubins3d_raw_inv _ _ _ _ _ _ _ _ _ _ _ _ _ _ Er') as (x2 & y2 & z2 & hd2 & ga2 & ro2 & v2 & S' & _ & F1 & _).
      destruct (dubins3d_raw_inv _ _ _ _ _ _ _ _ _ _ _ _ _ _ Er2) as (x3 & y3 & z3 & hd3 & ga3 & ro3 & v3 & S2 & _ & _ & F2).
      rewrite S in S', S2. injection S' as <- <- <- <- <- <- <-. injection S2 as <- <- <- <- <- <- <-.
      destruct (F0 _ Rr) as (c & b & vv & -> & -> & -> & ->). destruct (F1 _ Rr') as (c' & b' & vv' & Ec & Eb & Ev & ->).
      destruct (F2 _ Rr2) as (b2 & vv2 & Eb2 & Ev2 & ->).
      injection Ec as <-. injection Eb as <-. injection Ev as <-. injection Eb2 as <-. injection Ev2 as <-.
      rewrite S in X, Y, Z. injection X as ->. injection Y as ->. injection Z as ->.
      exists (x, y, z), (scale3 vv (nose c b)), hh. split; [|split; [exact Eh|split]].
      + unfold pos3, d3_position. rewrite S. reflexivity.
      + destruct p' as [[a0 b0] c0]. cbn [fst snd] in *. subst. unfold add3, scale3, nose. repeat (apply (f_equal2 pair)); ring.
      + destruct (I (Fin vv)) as [Q|(q & Q & B)]; [rewrite S; reflexivity|discriminate|]. injection Q as <-.
        pose proof (nose_unit c b) as NU.
        replace (dot3 (scale3 vv (nose c b)) (scale3 vv (nose c b))) with (vv * vv * dot3 (nose c b) (nose c b)) by (unfold nose; cbn; ring).
        rewrite NU. pose proof (sq_bound _ _ _ (proj1 HV) B). lra.
    - intros e h a [E I] R. apply (speed_step w D); try assumption; try reflexivity; try lra.
      intros c z Q. injection Q as <-. cbn. congruence.
    - lra.
  Qed.

  Lemma speed_after (w : world xr) D i lo hi e acts e' :
    bnth (d_min D) i = Some (Fin lo) -> bnth (d_max D) i = Some (Fin hi) -> lo <= hi ->
    (forall c z, d_wrap D = Some c -> bnth c i = Some z -> z = NaN) ->
    e_dyn e = D -> acts <> [] -> run w e acts = Ok e' -> speed_inv D i lo hi e'.
  Proof.
    intros L U Le W E Ne H. destruct (run_last _ _ _ _ Ne H) as (e1 & h & a & (Cd & _) & R & ->).
    apply speed_step; try assumption. congruence.
  Qed.

  (** From a state inside the speed limits, or after any history of steps. *)
  Lemma dubins2d_displacement (w : world xr) v_min v_max samples e acts e' x1 y1 z1 :
    e_dyn e = dubins2d_dyn (Fin v_min) (Fin v_max) samples "Euler" ->
    - rd v_max <= rd v_min <= rd v_max ->
    ((exists v0, d2_v e = Ok (Fin v0) /\ rd v_min <= v0 <= rd v_max) \/
     (exists e0 before, e_dyn e0 = e_dyn e /\ before <> [] /\ run w e0 before = Ok e)) ->
    run w e (fin_acts acts) = Ok e' -> d2_position e' = Ok (A1 (map Fin [x1; y1; z1])) ->
    exists x y z, d2_position e = Ok (A1 (map Fin [x; y; z])) /\
      norm3 (sub3 (x1, y1, z1) (x, y, z)) <= rd v_max * duration acts.
  Proof.
    intros E HV S H P.
    assert (I : speed_inv (dubins2d_dyn (Fin v_min) (Fin v_max) samples "Euler") 3 (rd v_min) (rd v_max) e).
    { destruct S as [(v0 & S & B)|(e0 & before & E0 & Ne & H0)].
      - split; [exact E|]. revert S. unfold d2_v, aidx. destruct (e_state e) as [|[|? [|? [|? [|? ?]]]]]; try discriminate.
        cbn. intros Q v Q'. right. exists v0. split; [congruence|exact B].
      - rewrite E in E0. eapply speed_after; try eassumption; try reflexivity; try lra.
        intros c z Q. injection Q as <-. cbn. congruence. }
    destruct (dubins2d_disp w v_min v_max samples acts HV e e' (x1, y1, z1) I H P) as ([[x y] z] & P' & L).
    exists x, y, z. split; [exact P'|exact L].
  Qed.
  Lemma dubins3d_displacement (w : world xr) g v_min v_max g_min g_max r_min r_max samples e acts e' x1 y1 z1 :
    e_dyn e = dubins3d_dyn g (Fin v_min) (Fin v_max) g_min g_max r_min r_max samples "Euler" ->
    - rd v_max <= rd v_min <= rd v_max ->
    ((exists v0, d3_v e = Ok (Fin v0) /\ rd v_min <= v0 <= rd v_max) \/
     (exists e0 before, e_dyn e0 = e_dyn e /\ before <> [] /\ run w e0 before = Ok e)) ->
    run w e (fin_acts acts) = Ok e' -> d3_position e' = Ok (A1 (map Fin [x1; y1; z1])) ->
    exists x y z, d3_position e = Ok (A1 (map Fin [x; y; z])) /\
      norm3 (sub3 (x1, y1, z1) (x, y, z)) <= rd v_max * duration acts.
  Proof.
    intros E HV S H P.
    assert (I : speed_inv (dubins3d_dyn g (Fin v_min) (Fin v_max) g_min g_max r_min r_max samples "Euler") 6 (rd v_min) (rd v_max) e).
    { destruct S as [(v0 & S & B)|(e0 & before & E0 & Ne & H0)].
      - split; [exact E|]. revert S. unfold d3_v, aidx.
        destruct (e_state e) as [|[|? [|? [|? [|? [|? [|? [|? ?]]]]]]]]; try discriminate.
        cbn. intros Q v Q'. right. exists v0. split; [congruence|exact B].
      - rewrite E in E0. eapply speed_after; try eassumption; try reflexivity; try lra.
        intros c z Q. injection Q as <-. cbn. congruence. }
    destruct (dubins3d_disp w g v_min v_max g_min g_max r_min r_max samples acts HV e e' (x1, y1, z1) I H P) as ([[x y] z] & P' & L).
    exists x, y, z. split; [exact P'|exact L].
  Qed.

  (** ** Kinematics *)
  Lemma dubins2d_kinematics v_min v_max samples method t x y hd v hr acc e :
    e_state e = A1 (map Fin [x; y; hd; v]) ->
    exists sd vel q,
      compute_state_dot (dubins2d_dyn (Fin v_min) (Fin v_max) samples method) t (e_state e) (A1 (map Fin [hr; acc])) = Ok (A1 (map Fin sd)) /\
      [nth 0 sd 0; nth 1 sd 0; 0] = vec_list vel /\
      d2_velocity e = Ok (A1 (map (fun r => Fin (rd r)) (vec_list vel))) /\
      norm3 vel = Rabs v /\
      d2_orientation e = Ok (fin4 q) /\ qnorm2 q = 1 /\ vel = scale3 v (rotate q (1, 0, 0)).
  Proof.
    intros E. exists [v * cos hd; v * sin hd; hr; stopR (rd v_min) (rd v_max) v acc], (scale3 v (nose hd 0)), (zyx hd 0 0).
    split; [rewrite E; apply dubins2d_csd|].
    split; [unfold nose; rewrite cos_0, sin_0; cbn; repeat (apply (f_equal2 cons); [ring|]); reflexivity|].
    split; [apply (d2_velocity_nose rd _ _ _ _ _ E)|].
    split; [rewrite norm_scale; unfold norm3; rewrite nose_unit, sqrt_1; ring|].
    split; [apply (d2_orientation_fin rd _ _ _ _ _ E)|]. split; [apply zyx_unit|]. rewrite zyx_nose. reflexivity.
  Qed.
  Lemma dubins3d_kinematics g v_min v_max g_min g_max r_min r_max samples method t x y z hd ga ro v u0 u1 u2 e :
    v <> 0 -> cos ro <> 0 ->
    e_state e = A1 (map Fin [x; y; z; hd; ga; ro; v]) ->
    exists sd vel q,
      compute_state_dot (dubins3d_dyn (Fin g) (Fin v_min) (Fin v_max) (Fin g_min) (Fin g_max) (Fin r_min) (Fin r_max) samples method) t
        (e_state e) (A1 (map Fin [u0; u1; u2])) = Ok (A1 (map Fin sd)) /\
      [nth 0 sd 0; nth 1 sd 0; nth 2 sd 0] = vec_list vel /\
      d3_velocity e = Ok (A1 (map (fun r => Fin (rd r)) (vec_list vel))) /\
      norm3 vel = Rabs v /\
      d3_orientation e = Ok (fin4 q) /\ qnorm2 q = 1 /\ vel = scale3 v (rotate q (1, 0, 0)).
  Proof.
    intros Hv Hr E. do 2 eexists. exists (zyx hd ga ro).
    split; [rewrite E; apply dubins3d_csd; assumption|].
    split; [|split; [apply (d3_velocity_nose rd _ _ _ _ _ _ _ _ E)|]].
    { unfold nose. cbn. repeat (apply (f_equal2 cons); [ring|]); reflexivity. }
    split; [rewrite norm_scale; unfold norm3; rewrite nose_unit, sqrt_1; ring|].
    split; [apply (d3_orientation_fin rd _ _ _ _ _ _ _ _ E)|]. split; [apply zyx_unit|]. rewrite zyx_nose. reflexivity.
  Qed.

  (** ** Coordinated turn *)
  Lemma dubins3d_regular g v_min v_max g_min g_max r_min r_max samples method t x y z hd ga ro v u0 u1 u2 :
    0 < rd v_min -> - PI / 2 < rd r_min -> rd r_max < PI / 2 ->
    rd v_min <= v -> rd r_min <= ro <= rd r_max ->
    exists sd,
      compute_state_dot (dubins3d_dyn (Fin g) (Fin v_min) (Fin v_max) (Fin g_min) (Fin g_max) (Fin r_min) (Fin r_max) samples method) t
        (A1 (map Fin [x; y; z; hd; ga; ro; v])) (A1 (map Fin [u0; u1; u2])) = Ok (A1 (map Fin sd)) /\
      length sd = 7%nat /\ nth 3 sd 0 = g / v * tan ro.
  Proof.
    intros Hv H1 H2 H3 H4. eexists. split; [apply dubins3d_csd|split; reflexivity]; [lra|].
    apply Rgt_not_eq, cos_gt_0; lra.
  Qed.
End X.

(** ** Reported acceleration, exact casts *)
Section A.
  Local Hint Extern 0 (Num xr) => exact (XR Fin) : typeclass_instances.

  Lemma d2_acceleration_nose e x y hd v a b c d : e_state e = A1 (map Fin [x; y; hd; v]) ->
    e_sdot e = A1 (map Fin [a; b; c; d]) -> v <> 0 ->
    d2_acceleration e = Ok (A1 (map Fin (vec_list (scale3 d (nose hd 0))))).
  Proof.
    intros E S Hv. pose proof (d2_acceleration_fin (fun x => x) e x y hd v a b c d E S Hv) as Q.
    etransitivity; [exact Q|]. cbn. fin_list; field; auto.
  Qed.
  Lemma d3_acceleration_nose e x y z hd ga ro v d0 d1 d2 d3 d4 d5 d6 : e_state e = A1 (map Fin [x; y; z; hd; ga; ro; v]) ->
    e_sdot e = A1 (map Fin [d0; d1; d2; d3; d4; d5; d6]) -> v <> 0 ->
    d3_acceleration e = Ok (A1 (map Fin (vec_list (scale3 d6 (nose hd ga))))).
  Proof.
    intros E S Hv. pose proof (d3_acceleration_fin (fun x => x) e x y z hd ga ro v d0 d1 d2 d3 d4 d5 d6 E S Hv) as Q.
    etransitivity; [exact Q|]. cbn. fin_list; field; auto.
  Qed.

  Lemma d2_acc_derivative e (sol : R -> list R) ds t x y hd v :
    (forall s, sol s = [x s; y s; hd s; v s]) -> length ds = 4%nat ->
    (forall i, (i < 4)%nat -> is_derive (fun s => nth i (sol s) 0) t (nth i ds 0)) ->
    e_state e = A1 (map Fin (sol t)) -> e_sdot e = A1 (map Fin ds) -> v t <> 0 ->
    exists acc vel,
      d2_acceleration e = Ok (A1 (map Fin acc)) /\
      (forall s, d2_velocity (set_state e (A1 (map Fin (sol s)))) = Ok (A1 (map Fin (vel s)))) /\
      forall i, (i < 3)%nat ->
        is_derive (fun s => nth i (vel s) 0) t
          (nth i acc 0 + v t * nth 2 ds 0 * nth i [- sin (hd t); cos (hd t); 0] 0).
  Proof.
    intros Sol L D Es Ed Hv. destruct ds as [|d0 [|d1 [|d2 [|d3 []]]]]; try discriminate. clear L.
    exists (vec_list (scale3 d3 (nose (hd t) 0))), (fun s => vec_list (scale3 (v s) (nose (hd s) 0))).
    rewrite Sol in Es. split; [eapply d2_acceleration_nose; eassumption|].
    split; [intros s; apply (d2_velocity_nose (fun x => x) _ (x s) (y s)); rewrite Sol; reflexivity|].
    assert (D2 : is_derive hd t d2).
    { apply is_derive_ext with (fun s => nth 2 (sol s) 0); [intros s; rewrite Sol; reflexivity|apply (D 2%nat); lia]. }
    assert (D3 : is_derive v t d3).
    { apply is_derive_ext with (fun s => nth 3 (sol s) 0); [intros s; rewrite Sol; reflexivity|apply (D 3%nat); lia]. }
    change (is_derive (fun s => hd s) t d2) in D2. change (is_derive (fun s => v s) t d3) in D3.
    assert (E2 : Derive (fun x0 : R => hd x0) t = d2) by (apply is_derive_unique; exact D2).
    assert (E3 : Derive (fun x0 : R => v x0) t = d3) by (apply is_derive_unique; exact D3).
    intros i Hi. destruct i as [|[|[|]]]; [| | |lia]; cbn;
      (auto_derive; [repeat split; eexists; eassumption|]);
      rewrite ?E2, ?E3, ?cos_0, ?sin_0; ring.
  Qed.
  Lemma d3_acc_derivative e (sol : R -> list R) ds t x y z hd ga ro v :
    (forall s, sol s = [x s; y s; z s; hd s; ga s; ro s; v s]) -> length ds = 7%nat ->
    (forall i, (i < 7)%nat -> is_derive (fun s => nth i (sol s) 0) t (nth i ds 0)) ->
    e_state e = A1 (map Fin (sol t)) -> e_sdot e = A1 (map Fin ds) -> v t <> 0 ->
    exists acc vel,
      d3_acceleration e = Ok (A1 (map Fin acc)) /\
      (forall s, d3_velocity (set_state e (A1 (map Fin (sol s)))) = Ok (A1 (map Fin (vel s)))) /\
      forall i, (i < 3)%nat ->
        is_derive (fun s => nth i (vel s) 0) t
          (nth i acc 0 + v t * nth 3 ds 0 * nth i [- sin (hd t) * cos (ga t); cos (hd t) * cos (ga t); 0] 0
                       + v t * nth 4 ds 0 * nth i [- cos (hd t) * sin (ga t); - sin (hd t) * sin (ga t); - cos (ga t)] 0).
  Proof.
    intros Sol L D Es Ed Hv. destruct ds as [|d0 [|d1 [|d2 [|d3 [|d4 [|d5 [|d6 []]]]]]]]; try discriminate. clear L.
    exists (vec_list (scale3 d6 (nose (hd t) (ga t)))), (fun s => vec_list (scale3 (v s) (nose (hd s) (ga s)))).
    rewrite Sol in Es. split; [eapply d3_acceleration_nose; eassumption|].
    split; [intros s; apply (d3_velocity_nose (fun x => x) _ (x s) (y s) (z s) (hd s) (ga s) (ro s)); rewrite Sol; reflexivity|].
    assert (D3 : is_derive (fun s => hd s) t d3).
    { apply is_derive_ext with (fun s => nth 3 (sol s) 0); [intros s; rewrite Sol; reflexivity|apply (D 3%nat); lia]. }
    assert (D4 : is_derive (fun s => ga s) t d4).
    { apply is_derive_ext with (fun s => nth 4 (sol s) 0); [intros s; rewrite Sol; reflexivity|apply (D 4%nat); lia]. }
    assert (D6 : is_derive (fun s => v s) t d6).
    { apply is_derive_ext with (fun s => nth 6 (sol s) 0); [intros s; rewrite Sol; reflexivity|apply (D 6%nat); lia]. }
    assert (E3 : Derive (fun x0 : R => hd x0) t = d3) by (apply is_derive_unique; exact D3).
    assert (E4 : Derive (fun x0 : R => ga x0) t = d4) by (apply is_derive_unique; exact D4).
    assert (E6 : Derive (fun x0 : R => v x0) t = d6) by (apply is_derive_unique; exact D6).
    intros i Hi. destruct i as [|[|[|]]]; [| | |lia]; cbn;
      (auto_derive; [repeat split; eexists; eassumption|]);
      rewrite ?E3, ?E4, ?E6; ring.
  Qed.

  Lemma d2_acc_refuted :
    exists (d : dyn xr) (u : arr xr) (sol : R -> list R) (e : entity xr) (vy : R -> R) ax ay az,
      d = dubins2d_dyn (Fin 0) (Fin 2) 0 "Euler" /\ solves d u sol /\
      e_dyn e = d /\ e_state e = A1 (map Fin (sol 0)) /\ compute_state_dot d (Fin 0) (e_state e) u = Ok (e_sdot e) /\
      (forall t, exists vx vz, d2_velocity (set_state e (A1 (map Fin (sol t)))) = Ok (A1 (map Fin [vx; vy t; vz]))) /\
      d2_acceleration e = Ok (A1 (map Fin [ax; ay; az])) /\ is_derive vy 0 1 /\ ay = 0.
  Proof.
    set (d := dubins2d_dyn (Fin 0) (Fin 2) 0 "Euler").
    assert (C : forall t hd x y, compute_state_dot d (Fin t) (A1 (map Fin [x; y; hd; 1])) (A1 (map Fin [1; 0]))
      = Ok (A1 (map Fin [cos hd; sin hd; 1; 0]))).
    { intros t hd x y. etransitivity; [apply (dubins2d_csd (fun x => x))|]. cbn [map]. fin_list; try ring.
      unfold stopR. destruct (Rle_dec 2 1); [lra|]. destruct (Rle_dec 1 0); [lra|reflexivity]. }
    set (e := mk_entity d (A1 (map Fin [0; 0])) (A1 (map Fin [0; 0])) (A1 (map Fin [0; 0])) (Some dubins2d_control_map)
                (A1 (map Fin [sin 0; 1 - cos 0; 0; 1]))).
    set (e1 := {| e_dyn := d; e_default := e_default e; e_cmin := e_cmin e; e_cmax := e_cmax e; e_cmap := e_cmap e;
                  e_state := e_state e; e_sdot := A1 (map Fin [cos 0; sin 0; 1; 0]); e_traj := e_traj e |}).
    exists d, (A1 (map Fin [1; 0])), (fun t => [sin t; 1 - cos t; t; 1]), e1, sin, 0, 0, 0.
    split; [reflexivity|]. split; [|split; [reflexivity|split; [reflexivity|split; [apply C|split]]]].
    - intros t. exists [cos t; sin t; 1; 0]. split; [reflexivity|]. split; [reflexivity|]. split; [apply C|].
      intros i Hi. cbn [length] in Hi. destruct i as [|[|[|[|]]]]; [| | | |lia]; cbn; auto_derive; auto; ring.
    - intros t. exists (cos t), 0. etransitivity; [apply (d2_velocity_nose (fun x => x) _ (sin t) (1 - cos t) t 1); reflexivity|].
      cbn. rewrite cos_0, sin_0. fin_list; ring.
    - split; [|split; [evar_last; [apply is_derive_sin|apply cos_0]|reflexivity]].
      etransitivity; [eapply (d2_acceleration_nose e1 (sin 0) (1 - cos 0) 0 1); try reflexivity; lra|]. cbn. fin_list; ring.
  Qed.
End A.

(** ** Limits at construction *)
Section C.
  Variable rd : R -> R.
  Local Hint Extern 0 (Num xr) => exact (XR (fun x => Fin (rd x))) : typeclass_instances.

  Lemma dubins2d_built samples method v_min v_max hr0 hr1 a0 a1 x y hd v :
    (forall a b, a <= b -> rd a <= rd b) -> v_min <= v <= v_max ->
    let e := dubins2d_aircraft samples method (Fin v_min) (Fin v_max) hr0 hr1 a0 a1 (Fin x) (Fin y) (Fin hd) (Fin v) in
    in_limits (d_min (e_dyn e)) (d_max (e_dyn e)) (e_state e).
  Proof.
    intros Mono B e i q l u Hq Hl Hu. right. subst e. cbn in Hq, Hl, Hu.
    destruct i as [|[|[|[|i]]]]; cbn in Hq, Hl, Hu; try (destruct i; discriminate);
      injection Hq as <-; injection Hl as <-; injection Hu as <-; cbn; auto.
    split; apply Rle_bool_true, Mono; lra.
  Qed.
  Lemma dubins3d_built samples method v_min v_max g_min g_max r_min r_max c0 c1 c2 c3 c4 c5 x y z hd ga ro v :
    (forall a b, a <= b -> rd a <= rd b) -> v_min <= v <= v_max -> g_min <= ga <= g_max -> r_min <= ro <= r_max ->
    let e := dubins3d_aircraft samples method (Fin v_min) (Fin v_max) (Fin g_min) (Fin g_max) (Fin r_min) (Fin r_max)
               c0 c1 c2 c3 c4 c5 (Fin x) (Fin y) (Fin z) (Fin hd) (Fin ga) (Fin ro) (Fin v) in
    in_limits (d_min (e_dyn e)) (d_max (e_dyn e)) (e_state e).
  Proof.
    intros Mono B1 B2 B3 e i q l u Hq Hl Hu. right. subst e. cbn in Hq, Hl, Hu.
    destruct i as [|[|[|[|[|[|[|i]]]]]]]; cbn in Hq, Hl, Hu; try (destruct i; discriminate);
      injection Hq as <-; injection Hl as <-; injection Hu as <-; cbn; auto;
      split; apply Rle_bool_true, Mono; lra.
  Qed.
End C.

Lemma dubins2d_unchecked :
  exists (e : entity xr) (v hd : R),
    e = dubins2d_aircraft (N := XR Fin) 0 "Euler" (Fin 200) (Fin 400) (Fin (-1)) (Fin 1) (Fin (-96)) (Fin 96)
          (Fin 0) (Fin 0) (Fin 10) (Fin 1000) /\
    d2_v e = Ok (Fin v) /\ d2_heading e = Ok (Fin hd) /\
    bnth (d_max (e_dyn e)) 3 = Some (Fin 400) /\ 400 < v /\ PI < hd /\
    ~ in_limits (N := XR Fin) (d_min (e_dyn e)) (d_max (e_dyn e)) (e_state e).
Proof.
  eexists. exists 1000, 10. split; [reflexivity|]. repeat (split; [reflexivity|]).
  split; [lra|]. split; [pose proof PI_4; lra|].
  intros H. destruct (H 3%nat (Fin 1000) (Fin 200) (Fin 400) eq_refl eq_refl eq_refl) as [Q|[_ Q]]; [discriminate|].
  revert Q. cbn. rewrite Rle_bool_false by lra. discriminate.
Qed.

Lemma dubins2d_setter_unchecked :
  exists (e e' : entity xr),
    in_limits (N := XR Fin) (d_min (e_dyn e)) (d_max (e_dyn e)) (e_state e) /\
    set_elem (N := XR Fin) e 3 false (Fin 1000) = Ok e' /\ e_dyn e' = e_dyn e /\
    ~ in_limits (N := XR Fin) (d_min (e_dyn e')) (d_max (e_dyn e')) (e_state e').
Proof.
  exists (dubins2d_aircraft (N := XR Fin) 0 "Euler" (Fin 200) (Fin 400) (Fin (-1)) (Fin 1) (Fin (-96)) (Fin 96)
          (Fin 0) (Fin 0) (Fin 1) (Fin 300)). eexists.
  split; [apply (dubins2d_built (fun x => x)); auto; lra|]. split; [reflexivity|]. split; [reflexivity|].
  intros H. destruct (H 3%nat (Fin 1000) (Fin 200) (Fin 400) eq_refl eq_refl eq_refl) as [Q|[_ Q]]; [discriminate|].
  revert Q. cbn. rewrite Rle_bool_false by lra. discriminate.
Qed.

(** ** Limits as configured *)
Definition dub3F (lm : libm) : entity f64 :=
  dubins3d_aircraft (N := F64 lm) 0 "Euler" (fl 200 1) (fl 400 1) (fl (-349066) 1000000) (fl 349066 1000000)
    (fl (-1047198) 1000000) (fl 1047198 1000000) (fl (-174533) 1000000) (fl 174533 1000000)
    (fl (-87266) 1000000) (fl 87266 1000000) (fl (-965) 10) (fl 965 10)
    (fl 0 1) (fl 0 1) (fl 0 1) (fl 0 1) (fl 0 1) (fl 0 1) (fl 200 1).
Lemma dub3F_roll (lm : libm) :
  let o := entity_step (N := F64 lm) (euler_world (N := F64 lm)) (dub3F lm) (fl 20 1) (AArr (A1 [fl 0 1; fl 1 1; fl 0 1])) in
  o_res o = Ok tt /\ match d3_roll (o_entity o) with Ok r => Bltb (fl 1047198 1000000) r = true | Err _ => False end.
Proof. split; vm_compute; reflexivity. Qed.

Lemma dubins2d_speed_configured {T} {N : Num T} {O : NumOrd T} (w : world T) v_min v_max samples method e acts e' v :
  nisnan (nf32 (nnan : T)) = true -> nf32 v_min = v_min -> nf32 v_max = v_max ->
  e_dyn e = dubins2d_dyn v_min v_max samples method -> nleb v_min v_max = true ->
  acts <> [] -> run w e acts = Ok e' -> d2_v e' = Ok v ->
  nisnan v = true \/ (nleb v_min v = true /\ nleb v v_max = true).
Proof.
  intros Nn E1 E2 D L Ne H V. 
  destruct (dubins2d_speed w v_min v_max samples method e acts e' v Nn D ltac:(congruence) Ne H V) as [Q|[Q1 Q2]]; auto.
  rewrite E1 in Q1. rewrite E2 in Q2. auto.
Qed.

Lemma dubins2d_example :
  let w := euler_world (N := XR Fin) in
  let e := dubins2d_aircraft (N := XR Fin) 0 "Euler" (Fin 200) (Fin 400) (Fin (-1)) (Fin 1) (Fin (-96)) (Fin 96)
             (Fin 0) (Fin 0) (Fin 0) (Fin 300) in
  exists e', run (N := XR Fin) w e (fin_acts [(1, AArr (A1 (map Fin [0; 0])))]) = Ok e' /\
    d2_position (N := XR Fin) e' = Ok (A1 (map Fin [300; 0; 0])) /\ d2_v e = Ok (Fin 300).
Proof.
  intros w e.
  assert (E0 : forall lo hi, lo <= 0 <= hi -> clipR lo hi 0 = 0) by (intros; apply clipR_id; lra).
  edestruct (euler_list (N := XR Fin) w e (Fin 1) (map Fin [0; 0; 0; 300]) (map Fin [0; 0])) as (R1 & _ & R3);
    [reflexivity|apply Z.le_refl|reflexivity|reflexivity|reflexivity|..|].
  1:{ cbn [e dubins2d_aircraft mk_entity e_cmin e_cmax expand clip_list map]. rewrite !clip1_Fin, !E0 by lra.
      apply (dubins2d_csd (fun x => x) 200 400 0 "Euler" _ 0 0 0 300 0 0). }
  1: reflexivity. 1: reflexivity. 1: reflexivity. 1: reflexivity. 1: reflexivity.
  unfold fin_acts. cbn [run map fst snd]. cbn [map] in R1, R3. rewrite R1. cbn [bind]. eexists. split; [reflexivity|]. split; [|reflexivity].
  unfold d2_position. rewrite R3. cbn. rewrite cos_0, sin_0. fin_list; field.
Qed.
