(** Lemmas for the Clohessy-Wiltshire spacecraft. *)
From Coq Require Import String List Bool Arith ZArith Lia Reals Lra.
From Flocq Require Import Core.Core.
From Coquelicot Require Import Coquelicot.
From Verif Require Import PyBase Num Arr BaseModel Spec SpecBase XReal NumOrdLemmas ArrLemmas BaseLemmas
  BaseLemmas2 BaseLemmas3 BaseLemmas4 XTac Cwh SpecRk RkLemmas SpecCwh.
Import List ListNotations.
Local Open Scope R_scope.

(** Replace the derivative of a function known from [D]. *)
Ltac rwD D :=
  match type of D with is_derive ?f ?u ?v =>
    let H := fresh in
    assert (H : Derive (fun x => f x) u = v) by (apply is_derive_unique; exact D);
    rewrite H; clear H end.

(** ** Matrices, over any numbers *)
Section Gen.
  Context {T : Type} {N : Num T}.
  Lemma cwh_2d_3d (m n : T) : neqb m n0 = false ->
    exists A2 B2 A3 B3,
      generate_cwh_matrices m n "2d" = Ok (A2, B2) /\ generate_cwh_matrices m n "3d" = Ok (A3, B3) /\
      A2 = submatrix n0 [0; 1; 3; 4]%nat [0; 1; 3; 4]%nat A3 /\
      B2 = submatrix n0 [0; 1; 3; 4]%nat [0; 1]%nat B3 /\
      submatrix n0 [2; 5]%nat [0; 1; 3; 4]%nat A3 = [[n0; n0; n0; n0]; [n0; n0; n0; n0]] /\
      submatrix n0 [0; 1; 3; 4]%nat [2; 5]%nat A3 = [[n0; n0]; [n0; n0]; [n0; n0]; [n0; n0]] /\
      submatrix n0 [2; 5]%nat [0; 1]%nat B3 = [[n0; n0]; [n0; n0]] /\
      submatrix n0 [0; 1; 3; 4]%nat [2]%nat B3 = [[n0]; [n0]; [n0]; [n0]].
  Proof.
    intros Hm. unfold generate_cwh_matrices, pydiv. rewrite Hm.
    cbn [py_assert String.eqb orb bind Ascii.eqb Bool.eqb].
    eexists _, _, _, _. split; [reflexivity|]. split; [reflexivity|].
    repeat split; reflexivity.
  Qed.
  Lemma cwh_mode (m n : T) mode : mode <> "2d"%string -> mode <> "3d"%string ->
    generate_cwh_matrices m n mode = Err AssertionError.
  Proof.
    intros H1 H2. unfold generate_cwh_matrices.
    rewrite (proj2 (String.eqb_neq _ _) H1), (proj2 (String.eqb_neq _ _) H2). reflexivity.
  Qed.
  Lemma cwh_m0 (m n : T) mode : neqb m n0 = true -> mode = "2d"%string \/ mode = "3d"%string ->
    generate_cwh_matrices m n mode = Err ZeroDivisionError.
  Proof.
    intros H. unfold generate_cwh_matrices, pydiv. rewrite H. intros [->| ->]; reflexivity.
  Qed.
End Gen.

Section X.
  Variable r32 : R -> xr.
  Local Hint Extern 0 (Num xr) => exact (XR r32) : typeclass_instances.

  Lemma clip1_Fin lo hi x : clip1 (Fin x) (Fin lo) (Fin hi) = Fin (clipR lo hi x).
  Proof.
    unfold clip1, np_max_clip, np_min_clip, clipR. cbn.
    destruct (Rlt_bool_spec lo x); cbn.
    - rewrite (Rmax_left x lo) by lra. destruct (Rlt_bool_spec x hi).
      + rewrite Rmin_left by lra. reflexivity.
      + rewrite Rmin_right by lra. reflexivity.
    - rewrite (Rmax_right x lo) by lra. destruct (Rlt_bool_spec lo hi).
      + rewrite Rmin_left by lra. reflexivity.
      + rewrite Rmin_right by lra. reflexivity.
  Qed.
  Lemma clipR_id lo hi x : lo <= x <= hi -> clipR lo hi x = x.
  Proof. intros H. unfold clipR. rewrite Rmax_left, Rmin_left by lra. reflexivity. Qed.
  Lemma np_clip_scalar lo hi (l : list R) :
    np_clip (A1 (map Fin l)) (A0 (Fin lo)) (A0 (Fin hi)) = Ok (A1 (map Fin (map (clipR lo hi) l))).
  Proof.
    unfold np_clip. cbn [bmap2 bind]. do 2 f_equal. rewrite !map_map. apply map_ext. intros x.
    exact (clip1_Fin lo hi x).
  Qed.

  (** ** Derivative *)
  Lemma cwh_raw m n samples method d : m <> 0 -> cwh_dyn (Fin m) (Fin n) samples method = Ok d ->
    forall t x y z vx vy vz fx fy fz,
      d_raw d t (A1 [Fin x; Fin y; Fin z; Fin vx; Fin vy; Fin vz]) (A1 [Fin fx; Fin fy; Fin fz])
      = Ok (A1 [Fin vx; Fin vy; Fin vz; Fin (3 * n^2 * x + 2 * n * vy + fx / m);
                Fin (- 2 * n * vx + fy / m); Fin (- n^2 * z + fz / m)]).
  Proof.
    intros Hm. unfold cwh_dyn, generate_cwh_matrices, pydiv, linear_dyn. cbn.
    rewrite (Req_bool_false m (0/1)) by lra. cbn. rewrite (Req_bool_false m 0) by lra.
    intros E; injection E as <-. intros. cbn.
    fin_list; field; auto.
  Qed.
  Lemma cwh_plain m n samples method d : cwh_dyn (Fin m) (Fin n) samples method = Ok d ->
    d_min d = no_min /\ d_max d = no_max /\ d_sdmin d = no_min /\ d_sdmax d = no_max /\
    d_wrap d = None /\ d_method d = method /\ d_samples d = samples.
  Proof.
    unfold cwh_dyn. destruct (generate_cwh_matrices _ _ _) as [[A B]|]; [|discriminate]. cbn [bind].
    unfold linear_dyn. destruct (py_assert _); [|discriminate]. cbn [bind].
    destruct (py_assert _); [|discriminate]. cbn [bind]. intros E; injection E as <-. repeat split.
  Qed.
  Lemma cwh_csd m n samples method d : m <> 0 -> cwh_dyn (Fin m) (Fin n) samples method = Ok d ->
    forall t x y z vx vy vz fx fy fz,
      compute_state_dot d t (A1 [Fin x; Fin y; Fin z; Fin vx; Fin vy; Fin vz]) (A1 [Fin fx; Fin fy; Fin fz])
      = Ok (A1 [Fin vx; Fin vy; Fin vz; Fin (3 * n^2 * x + 2 * n * vy + fx / m);
                Fin (- 2 * n * vx + fy / m); Fin (- n^2 * z + fz / m)]).
  Proof.
    intros Hm E t x y z vx vy vz fx fy fz.
    destruct (cwh_plain _ _ _ _ _ E) as (H1 & H2 & H3 & H4 & _).
    apply (csd_unlimited r32 d t [x; y; z; vx; vy; vz] _
      [vx; vy; vz; 3 * n^2 * x + 2 * n * vy + fx / m; - 2 * n * vx + fy / m; - n^2 * z + fz / m]); auto.
    exact (cwh_raw m n samples method d Hm E t x y z vx vy vz fx fy fz).
  Qed.

  Lemma cwh_spacecraft_dyn m n samples method x y z vx vy vz e :
    cwh_spacecraft (Fin m) (Fin n) samples method x y z vx vy vz = Ok e ->
    cwh_dyn (Fin m) (Fin n) samples method = Ok (e_dyn e) /\ e_default e = A1 [Fin (0/1); Fin (0/1); Fin (0/1)] /\
    e_cmin e = A0 (Fin (-1/1)) /\ e_cmax e = A0 (Fin (1/1)) /\ e_cmap e = Some cwh_control_map.
  Proof.
    unfold cwh_spacecraft. destruct (cwh_dyn _ _ _ _) as [d|] eqn:E; [|discriminate]. cbn [bind].
    intros H. injection H as <-. repeat split.
  Qed.

  (** ** An Euler step without state limits *)
  Lemma euler_exact (w : world xr) (e : entity xr) h s l l' d :
    d_min (e_dyn e) = no_min -> d_max (e_dyn e) = no_max ->
    d_sdmin (e_dyn e) = no_min -> d_sdmax (e_dyn e) = no_max -> d_wrap (e_dyn e) = None ->
    d_method (e_dyn e) = "Euler"%string -> (d_samples (e_dyn e) <= 0)%Z ->
    e_state e = A1 (map Fin s) -> fits (e_cmin e) (A1 l) -> fits (e_cmax e) (A1 l) ->
    np_clip (A1 l) (e_cmin e) (e_cmax e) = Ok (A1 l') ->
    d_raw (e_dyn e) (Fin (0/1)) (A1 (map Fin s)) (A1 l') = Ok (A1 (map Fin d)) -> length d = length s ->
    let o := entity_step w e (Fin h) (AArr (A1 l)) in
    o_res o = Ok tt /\ e_state (o_entity o) = A1 (map Fin (vaxpy s h d)) /\
    e_sdot (o_entity o) = A1 (map Fin d).
  Proof.
    intros M1 M2 D1 D2 W Me Sa Es F1 F2 Cl Er Ld o. subst o. unfold entity_step. cbn [decode_action].
    destruct (out_of_bounds_spec (A1 l) _ _ F1 F2) as (b & Eb & _). rewrite Eb, Cl.
    unfold dyn_step, dyn__step. rewrite Me. cbn [String.eqb Ascii.eqb Bool.eqb].
    rewrite (proj2 (Z.leb_le _ _) Sa). cbn [py_assert bind]. rewrite Es.
    change (@n0 xr (XR r32)) with (Fin (0/1)). rewrite (csd_unlimited r32 (e_dyn e) _ s _ d) by auto.
    cbn [bind]. change (@nadd xr (XR r32)) with xadd. change (@nmul xr (XR r32)) with xmul.
    rewrite axpy_arr by auto. cbn [bind]. rewrite M1, M2, clip_none. cbn [bind].
    unfold wrap_angles. rewrite W. cbn [bind]. repeat split.
  Qed.

  Lemma cwh_euler (w : world xr) m n samples e h x y z vx vy vz fx fy fz a b c d f g :
    m <> 0 -> (samples <= 0)%Z ->
    cwh_spacecraft (Fin m) (Fin n) samples "Euler" a b c d f g = Ok e ->
    -1 <= fx <= 1 -> -1 <= fy <= 1 -> -1 <= fz <= 1 ->
    e_state e = A1 (map Fin [x; y; z; vx; vy; vz]) ->
    let o := entity_step w e (Fin h) (AArr (A1 [Fin fx; Fin fy; Fin fz])) in
    o_res o = Ok tt /\
    e_state (o_entity o) = A1 (map Fin
      [x + h * vx; y + h * vy; z + h * vz; vx + h * (3 * n^2 * x + 2 * n * vy + fx / m);
       vy + h * (- 2 * n * vx + fy / m); vz + h * (- n^2 * z + fz / m)]) /\
    e_sdot (o_entity o) = A1 (map Fin
      [vx; vy; vz; 3 * n^2 * x + 2 * n * vy + fx / m; - 2 * n * vx + fy / m; - n^2 * z + fz / m]).
  Proof.
    intros Hm Sa E Hx Hy Hz Es o. subst o.
    destruct (cwh_spacecraft_dyn _ _ _ _ _ _ _ _ _ _ _ E) as (Ed & _ & Cmi & Cma & _).
    destruct (cwh_plain _ _ _ _ _ Ed) as (H1 & H2 & H3 & H4 & H5 & H6 & H7).
    refine (euler_exact w e h [x; y; z; vx; vy; vz] [Fin fx; Fin fy; Fin fz] [Fin fx; Fin fy; Fin fz]
      [vx; vy; vz; 3 * n^2 * x + 2 * n * vy + fx / m; - 2 * n * vx + fy / m; - n^2 * z + fz / m]
      H1 H2 H3 H4 H5 H6 _ Es _ _ _ _ eq_refl).
    - lia.
    - rewrite Cmi. exact I.
    - rewrite Cma. exact I.
    - rewrite Cmi, Cma. change [Fin fx; Fin fy; Fin fz] with (map Fin [fx; fy; fz]).
      rewrite np_clip_scalar. cbn [map]. rewrite !clipR_id by lra. reflexivity.
    - exact (cwh_raw m n _ _ _ Hm Ed _ x y z vx vy vz fx fy fz).
  Qed.

  (** ** First integral *)
  Lemma no_y_decode (w : world xr) e a c : e_default e = A1 [Fin (0/1); Fin (0/1); Fin (0/1)] ->
    e_cmap e = Some cwh_control_map -> no_y_thrust a -> decode_action w e a = Ok c ->
    exists fx fz, c = A1 [Fin fx; Fin 0; Fin fz].
  Proof.
    intros D M. assert (Z : forall x, Fin (0/1) = Fin x -> x = 0) by (intros x H; injection H as <-; lra).
    assert (Z0 : 0/1 = 0) by lra.
    destruct 1 as [|items H|fx fz]; cbn [decode_action].
    - rewrite D. intros E. injection E as <-. exists 0, 0. rewrite Z0. reflexivity.
    - rewrite M, D, Z0.
      assert (G : forall fx fz, apply_items cwh_control_map items (A1 [Fin fx; Fin 0; Fin fz]) = Ok c ->
                  exists fx fz, c = A1 [Fin fx; Fin 0; Fin fz]).
      { clear M D. induction items as [|[k v] items IH]; intros fx fz E; simpl in E.
        - injection E as <-. eauto.
        - destruct (H k v (or_introl eq_refl)) as (Hk & r & ->).
          assert (IH' := IH (fun k' v' Hin => H k' v' (or_intror Hin))). clear IH H.
          destruct (String.eqb k "thrust_x"); [apply (IH' r fz); exact E|].
          destruct (String.eqb_spec k "thrust_y"); [contradiction|].
          destruct (String.eqb k "thrust_z"); [apply (IH' fx r); exact E|]. discriminate. }
      apply G.
    - intros E. injection E as <-. eauto.
  Qed.

  Lemma len6 (q : list R) : length q = 6%nat -> exists a b c d e f, q = [a; b; c; d; e; f].
  Proof. destruct q as [|a [|b [|c [|d [|e [|f [|]]]]]]]; try discriminate. intros _. exists a, b, c, d, e, f. reflexivity. Qed.

  Lemma cwh_first_integral (w : world xr) m n samples method a b c d f g e0 acts e' x y z vx vy vz :
    m <> 0 -> method = "Euler"%string \/ rk_solver w ->
    cwh_spacecraft (Fin m) (Fin n) samples method a b c d f g = Ok e0 ->
    Forall (fun p : R * action xr => no_y_thrust (snd p)) acts ->
    run w (set_state e0 (A1 (map Fin [x; y; z; vx; vy; vz]))) (fin_acts acts) = Ok e' ->
    exists x' y' z' vx' vy' vz', e_state e' = A1 (map Fin [x'; y'; z'; vx'; vy'; vz']) /\
      vy' + 2 * n * x' = vy + 2 * n * x.
  Proof.
    intros Hm RK E Ha Hr.
    destruct (cwh_spacecraft_dyn _ _ _ _ _ _ _ _ _ _ _ E) as (Ed & Df & Cmi & Cma & Cm).
    destruct (cwh_plain _ _ _ _ _ Ed) as (H1 & H2 & H3 & H4 & H5 & H6 & _).
    assert (F : forall act, no_y_thrust act -> forall c0 c', decode_action w e0 act = Ok c0 ->
       np_clip c0 (e_cmin e0) (e_cmax e0) = Ok c' -> forall t q, length q = 6%nat ->
       exists dd, length dd = 6%nat /\ d_raw (e_dyn e0) (Fin t) (A1 (map Fin q)) c' = Ok (A1 (map Fin dd)) /\
         vdot [2 * n; 0; 0; 0; 1; 0] dd = 0).
    { intros act Hact c0 c' Dc Cl t q Lq.
      destruct (no_y_decode w e0 act c0 Df Cm Hact Dc) as (fx & fz & ->).
      rewrite Cmi, Cma in Cl. change [Fin fx; Fin 0; Fin fz] with (map Fin [fx; 0; fz]) in Cl.
      rewrite np_clip_scalar in Cl. injection Cl as <-. rewrite (clipR_id _ _ 0) by lra.
      destruct (len6 q Lq) as (q0 & q1 & q2 & q3 & q4 & q5 & ->). cbn [map].
      rewrite (cwh_raw m n _ _ _ Hm Ed).
      match goal with |- context [Ok (A1 [Fin ?p0; Fin ?p1; Fin ?p2; Fin ?p3; Fin ?p4; Fin ?p5])] =>
        exists [p0; p1; p2; p3; p4; p5] end.
      split; [reflexivity|]. split; [reflexivity|]. cbn [vdot]. field. auto. }
    destruct (run_functional r32 w e0 6 [2 * n; 0; 0; 0; 1; 0] 0 no_y_thrust
      ltac:(rewrite H6; destruct RK; auto) H1 H2 H3 H4 H5 F
      acts (set_state e0 (A1 (map Fin [x; y; z; vx; vy; vz]))) [x; y; z; vx; vy; vz] e')
      as (s' & Es & L & K); auto.
    - repeat split.
    - destruct (len6 s' L) as (q0 & q1 & q2 & q3 & q4 & q5 & ->).
      exists q0, q1, q2, q3, q4, q5. split; [exact Es|]. cbn [vdot] in K. lra.
  Qed.

  (** ** Exact flow *)
  Lemma cw_flow_0 n s : n <> 0 -> length s = 6%nat -> cw_flow n s 0 = s.
  Proof.
    intros Hn L. destruct (len6 s L) as (a & b & c & d & e & f & ->). unfold cw_flow. cbv zeta.
    rewrite Rmult_0_r, sin_0, cos_0. repeat f_equal; field; auto.
  Qed.
  Lemma cw_flow_solves m n samples method d s : m <> 0 -> n <> 0 -> length s = 6%nat ->
    cwh_dyn (Fin m) (Fin n) samples method = Ok d ->
    solves d (A1 (map Fin [0; 0; 0])) (cw_flow n s).
  Proof.
    intros Hm Hn L Ed t. destruct (len6 s L) as (x & y & z & vx & vy & vz & ->).
    unfold cw_flow. cbv zeta.
    match goal with |- context [map Fin [?p0; ?p1; ?p2; ?p3; ?p4; ?p5]] =>
      pose proof (cwh_csd m n _ _ _ Hm Ed (Fin t) p0 p1 p2 p3 p4 p5 0 0 0) as Q end.
    match type of Q with _ = Ok (A1 [Fin ?p0; Fin ?p1; Fin ?p2; Fin ?p3; Fin ?p4; Fin ?p5]) =>
      exists [p0; p1; p2; p3; p4; p5] end.
    split; [reflexivity|]. split; [reflexivity|]. split; [exact Q|]. clear Q. cbn [length].
    intros i Hi. do 6 (destruct i as [|i]; [cbn [nth]; auto_derive; [repeat split; auto| field; auto]|]). lia.
  Qed.

  Lemma const_of_derive (f : R -> R) : (forall t, is_derive f t 0) -> forall t, f t = f 0.
  Proof.
    intros H t. destruct (MVT_gen f 0 t (fun _ => 0)) as (c & _ & E).
    - intros; apply H.
    - intros x _. apply continuity_pt_filterlim, (@ex_derive_continuous R_AbsRing R_NormedModule). exists 0. apply H.
    - lra.
  Qed.

  Lemma cwh_solution m n samples method d sol : m <> 0 -> cwh_dyn (Fin m) (Fin n) samples method = Ok d ->
    length (sol 0) = 6%nat -> solves d (A1 (map Fin [0; 0; 0])) sol ->
    let g := fun i t => nth i (sol t) 0 in
    (forall t, sol t = [g 0%nat t; g 1%nat t; g 2%nat t; g 3%nat t; g 4%nat t; g 5%nat t]) /\
    (forall t, is_derive (g 0%nat) t (g 3%nat t)) /\ (forall t, is_derive (g 1%nat) t (g 4%nat t)) /\
    (forall t, is_derive (g 2%nat) t (g 5%nat t)) /\
    (forall t, is_derive (g 3%nat) t (3 * n^2 * g 0%nat t + 2 * n * g 4%nat t)) /\
    (forall t, is_derive (g 4%nat) t (- 2 * n * g 3%nat t)) /\
    (forall t, is_derive (g 5%nat) t (- n^2 * g 2%nat t)).
  Proof.
    intros Hm Ed L0 S g.
    assert (G : forall t, sol t = [g 0%nat t; g 1%nat t; g 2%nat t; g 3%nat t; g 4%nat t; g 5%nat t] /\
       is_derive (g 0%nat) t (g 3%nat t) /\ is_derive (g 1%nat) t (g 4%nat t) /\
       is_derive (g 2%nat) t (g 5%nat t) /\
       is_derive (g 3%nat) t (3 * n^2 * g 0%nat t + 2 * n * g 4%nat t) /\
       is_derive (g 4%nat) t (- 2 * n * g 3%nat t) /\ is_derive (g 5%nat) t (- n^2 * g 2%nat t)).
    { intros t. destruct (S t) as (ds & Lt & Ld & E & D). rewrite L0 in *. unfold g in *. clear g.
      destruct (len6 _ Lt) as (x & y & z & vx & vy & vz & Et). rewrite Et in E. cbn [map] in E.
      rewrite (cwh_csd m n _ _ _ Hm Ed) in E.
      match type of E with Ok (A1 [Fin ?p0; Fin ?p1; Fin ?p2; Fin ?p3; Fin ?p4; Fin ?p5]) = _ =>
        change (Ok (A1 (map Fin [p0; p1; p2; p3; p4; p5])) = Ok (A1 (map Fin ds))) in E end.
      apply Ok_Fin_inj in E. subst ds. split; [rewrite Et; reflexivity|].
      rewrite Et. cbn [nth] in *.
      refine (conj _ (conj _ (conj _ (conj _ (conj _ _))))); [pose proof (D 0%nat)|pose proof (D 1%nat)|pose proof (D 2%nat)|pose proof (D 3%nat)
        |pose proof (D 4%nat)|pose proof (D 5%nat)]; cbn [nth] in *;
      match goal with H : (?i < 6)%nat -> is_derive _ _ ?v |- is_derive _ _ ?w =>
        replace w with v by (field; auto); apply H; lia end. }
    refine (conj _ (conj _ (conj _ (conj _ (conj _ (conj _ _)))))); intros t; apply (G t).
  Qed.

  Lemma cw_energies (n : R) (g : nat -> R -> R) :
    (forall t, is_derive (g 0%nat) t (g 3%nat t)) -> (forall t, is_derive (g 2%nat) t (g 5%nat t)) ->
    (forall t, is_derive (g 3%nat) t (3 * n^2 * g 0%nat t + 2 * n * g 4%nat t)) ->
    (forall t, is_derive (g 4%nat) t (- 2 * n * g 3%nat t)) ->
    (forall t, is_derive (g 5%nat) t (- n^2 * g 2%nat t)) ->
    forall t,
      g 3%nat t ^ 2 + g 4%nat t ^ 2 - 3 * n^2 * g 0%nat t ^ 2 =
      g 3%nat 0 ^ 2 + g 4%nat 0 ^ 2 - 3 * n^2 * g 0%nat 0 ^ 2 /\
      g 5%nat t ^ 2 + n^2 * g 2%nat t ^ 2 = g 5%nat 0 ^ 2 + n^2 * g 2%nat 0 ^ 2 /\
      g 4%nat t + 2 * n * g 0%nat t = g 4%nat 0 + 2 * n * g 0%nat 0.
  Proof.
    intros D0 D2 D3 D4 D5 t. split; [|split].
    - apply (const_of_derive (fun t => g 3%nat t ^ 2 + g 4%nat t ^ 2 - 3 * n^2 * g 0%nat t ^ 2)).
      intros u. specialize (D0 u). specialize (D3 u). specialize (D4 u).
      auto_derive; [repeat split; eexists; eassumption|].
      rwD D0. rwD D3. rwD D4.  ring.
    - apply (const_of_derive (fun t => g 5%nat t ^ 2 + n^2 * g 2%nat t ^ 2)).
      intros u. specialize (D2 u). specialize (D5 u).
      auto_derive; [repeat split; eexists; eassumption|].
      rwD D2. rwD D5.  ring.
    - apply (const_of_derive (fun t => g 4%nat t + 2 * n * g 0%nat t)).
      intros u. specialize (D0 u). specialize (D4 u).
      auto_derive; [repeat split; eexists; eassumption|].
      rwD D0. rwD D4.  ring.
  Qed.
  Lemma cwh_energies m n samples method d sol : m <> 0 -> cwh_dyn (Fin m) (Fin n) samples method = Ok d ->
    length (sol 0) = 6%nat -> solves d (A1 (map Fin [0; 0; 0])) sol ->
    let g := fun i t => nth i (sol t) 0 in
    forall t,
      g 3%nat t ^ 2 + g 4%nat t ^ 2 - 3 * n^2 * g 0%nat t ^ 2 =
      g 3%nat 0 ^ 2 + g 4%nat 0 ^ 2 - 3 * n^2 * g 0%nat 0 ^ 2 /\
      g 5%nat t ^ 2 + n^2 * g 2%nat t ^ 2 = g 5%nat 0 ^ 2 + n^2 * g 2%nat 0 ^ 2 /\
      g 4%nat t + 2 * n * g 0%nat t = g 4%nat 0 + 2 * n * g 0%nat 0.
  Proof.
    intros Hm Ed L0 S g t. destruct (cwh_solution m n _ _ _ _ Hm Ed L0 S) as (_ & D0 & D1 & D2 & D3 & D4 & D5).
    exact (cw_energies n (fun i t => nth i (sol t) 0) D0 D2 D3 D4 D5 t).
  Qed.

  (** Two functions with the Clohessy-Wiltshire derivatives and equal initial values. *)
  Lemma cw_zero (n : R) (g : nat -> R -> R) : n <> 0 ->
    (forall t, is_derive (g 0%nat) t (g 3%nat t)) -> (forall t, is_derive (g 1%nat) t (g 4%nat t)) ->
    (forall t, is_derive (g 2%nat) t (g 5%nat t)) ->
    (forall t, is_derive (g 3%nat) t (3 * n^2 * g 0%nat t + 2 * n * g 4%nat t)) ->
    (forall t, is_derive (g 4%nat) t (- 2 * n * g 3%nat t)) ->
    (forall t, is_derive (g 5%nat) t (- n^2 * g 2%nat t)) ->
    (forall i, (i < 6)%nat -> g i 0 = 0) ->
    forall t i, (i < 6)%nat -> g i t = 0.
  Proof.
    intros Hn D0 D1 D2 D3 D4 D5 I.
    assert (K : forall t, g 4%nat t = - 2 * n * g 0%nat t).
    { intros t. assert (Q : g 4%nat t + 2 * n * g 0%nat t = g 4%nat 0 + 2 * n * g 0%nat 0).
      { apply (const_of_derive (fun t => g 4%nat t + 2 * n * g 0%nat t)). intros u.
        specialize (D0 u). specialize (D4 u). auto_derive; [repeat split; eexists; eassumption|].
        rwD D0. rwD D4.  ring. }
      rewrite (I 4%nat), (I 0%nat) in Q by lia. lra. }
    assert (n2 : 0 < n^2) by (apply pow2_gt_0; auto).
    assert (E : forall t, g 3%nat t = 0 /\ g 0%nat t = 0).
    { intros t. assert (Q : g 3%nat t ^ 2 + n^2 * g 0%nat t ^ 2 = g 3%nat 0 ^ 2 + n^2 * g 0%nat 0 ^ 2).
      { apply (const_of_derive (fun t => g 3%nat t ^ 2 + n^2 * g 0%nat t ^ 2)). intros u.
        specialize (D0 u). specialize (D3 u). auto_derive; [repeat split; eexists; eassumption|].
        rwD D0. rwD D3. rewrite K. ring. }
      rewrite (I 3%nat), (I 0%nat) in Q by lia.
      assert (P1 := pow2_ge_0 (g 3%nat t)). assert (P2 := pow2_ge_0 (g 0%nat t)).
      assert (P3 : 0 <= n^2 * g 0%nat t ^ 2) by (apply Rmult_le_pos; lra).
      assert (Q1 : g 3%nat t ^ 2 = 0) by lra. assert (Q2 : n^2 * g 0%nat t ^ 2 = 0) by lra.
      split; [nra|]. apply Rmult_integral in Q2. destruct Q2; nra. }
    assert (E2 : forall t, g 5%nat t = 0 /\ g 2%nat t = 0).
    { intros t. assert (Q : g 5%nat t ^ 2 + n^2 * g 2%nat t ^ 2 = g 5%nat 0 ^ 2 + n^2 * g 2%nat 0 ^ 2).
      { apply (const_of_derive (fun t => g 5%nat t ^ 2 + n^2 * g 2%nat t ^ 2)). intros u.
        specialize (D2 u). specialize (D5 u). auto_derive; [repeat split; eexists; eassumption|].
        rwD D2. rwD D5.  ring. }
      rewrite (I 5%nat), (I 2%nat) in Q by lia.
      assert (P1 := pow2_ge_0 (g 5%nat t)). assert (P2 := pow2_ge_0 (g 2%nat t)).
      assert (P3 : 0 <= n^2 * g 2%nat t ^ 2) by (apply Rmult_le_pos; lra).
      assert (Q1 : g 5%nat t ^ 2 = 0) by lra. assert (Q2 : n^2 * g 2%nat t ^ 2 = 0) by lra.
      split; [nra|]. apply Rmult_integral in Q2. destruct Q2; nra. }
    assert (E1 : forall t, g 4%nat t = 0) by (intros t; rewrite K, (proj2 (E t)); ring).
    assert (E0 : forall t, g 1%nat t = 0).
    { intros t. rewrite <- (I 1%nat) by lia. apply (const_of_derive (g 1%nat)). intros u. rewrite <- (E1 u). apply D1. }
    intros t i Hi. destruct (E t), (E2 t).
    do 6 (destruct i as [|i]; [auto|]). lia.
  Qed.

  Lemma cwh_unique m n samples method d sol : m <> 0 -> n <> 0 ->
    cwh_dyn (Fin m) (Fin n) samples method = Ok d ->
    length (sol 0) = 6%nat -> solves d (A1 (map Fin [0; 0; 0])) sol ->
    forall t, sol t = cw_flow n (sol 0) t.
  Proof.
    intros Hm Hn Ed L0 S.
    pose proof (cw_flow_solves m n _ _ _ _ Hm Hn L0 Ed) as S'.
    assert (L0' : length (cw_flow n (sol 0) 0) = 6%nat) by (rewrite cw_flow_0; auto).
    destruct (cwh_solution m n _ _ _ _ Hm Ed L0 S) as (F & D0 & D1 & D2 & D3 & D4 & D5).
    destruct (cwh_solution m n _ _ _ _ Hm Ed L0' S') as (F' & D0' & D1' & D2' & D3' & D4' & D5').
    cbv zeta in *. set (g := fun i t => nth i (sol t) 0) in *. set (g' := fun i t => nth i (cw_flow n (sol 0) t) 0) in *.
    assert (Z : forall t i, (i < 6)%nat -> g i t - g' i t = 0).
    { apply (cw_zero n (fun i t => g i t - g' i t) Hn).
      - intros t. apply (is_derive_minus (g 0%nat) (g' 0%nat)); [apply D0|apply D0'].
      - intros t. apply (is_derive_minus (g 1%nat) (g' 1%nat)); [apply D1|apply D1'].
      - intros t. apply (is_derive_minus (g 2%nat) (g' 2%nat)); [apply D2|apply D2'].
      - intros t. evar_last. apply (is_derive_minus (g 3%nat) (g' 3%nat)); [apply D3|apply D3'].
        unfold minus, plus, opp; simpl. unfold g, g'. ring.
      - intros t. evar_last. apply (is_derive_minus (g 4%nat) (g' 4%nat)); [apply D4|apply D4'].
        unfold minus, plus, opp; simpl. unfold g, g'. ring.
      - intros t. evar_last. apply (is_derive_minus (g 5%nat) (g' 5%nat)); [apply D5|apply D5'].
        unfold minus, plus, opp; simpl. unfold g, g'. ring.
      - intros i _. unfold g, g'. rewrite cw_flow_0 by auto. ring. }
    intros t. rewrite (F t), (F' t). unfold g, g' in Z. fin_list;
    match goal with |- nth ?i _ _ = _ => pose proof (Z t i ltac:(lia)); lra end.
  Qed.

  (** ** Superposition *)
  Lemma dot_Fin l : forall acc m, length l = length m ->
    dot_acc (Fin acc) (map Fin l) (map Fin m) = Fin (acc + vdot l m).
  Proof.
    induction l as [|a l IH]; intros acc [|b m] L; try discriminate; simpl; [f_equal; lra|].
    rewrite IH by (simpl in L; lia). f_equal. lra.
  Qed.
  Lemma matvec_Fin (M : list (list R)) (s : list R) : Forall (fun r => length r = length s) M ->
    matvec (map (map Fin) M) (A1 (map Fin s)) = Ok (A1 (map Fin (map (fun r => vdot r s) M))).
  Proof.
    intros H. unfold matvec.
    assert (G : forallb (fun r => (length r =? length (map Fin s))%nat) (map (map Fin) M) = true).
    { apply forallb_forall. intros r Hr. apply in_map_iff in Hr. destruct Hr as (r' & <- & Hr).
      rewrite !map_length. apply Nat.eqb_eq. rewrite Forall_forall in H. auto. }
    rewrite G. do 2 f_equal. rewrite !map_map. apply map_ext_in. intros r Hr.
    rewrite Forall_forall in H. unfold dot. change n0 with (Fin (0/1)). rewrite dot_Fin by auto. f_equal. lra.
  Qed.
  Lemma zip_add a : forall b, length a = length b ->
    zipw xadd (map Fin a) (map Fin b) = map Fin (zipw Rplus a b).
  Proof. induction a; destruct b; simpl; intros; auto; try discriminate. f_equal; auto. Qed.

  Lemma linear_raw_Fin (A B : list (list R)) t s u :
    Forall (fun r => length r = length s) A -> Forall (fun r => length r = length u) B ->
    length A = length B ->
    linear_raw (map (map Fin) A) (map (map Fin) B) t (A1 (map Fin s)) (A1 (map Fin u)) =
    Ok (A1 (map Fin (zipw Rplus (map (fun r => vdot r s) A) (map (fun r => vdot r u) B)))).
  Proof.
    intros HA HB L. unfold linear_raw, affine_raw. rewrite matvec_Fin by auto. cbn [bind].
    rewrite matvec_Fin by auto. cbn [bind]. unfold bmap2. rewrite !map_length, L, Nat.eqb_refl.
    do 2 f_equal. apply zip_add. rewrite !map_length. auto.
  Qed.

  Lemma linear_dyn_inv (A B : list (list xr)) samples method d : linear_dyn A B samples method = Ok d ->
    Forall (fun r => length r = length A) A /\ length A = length B /\
    d_min d = no_min /\ d_max d = no_max /\ d_sdmin d = no_min /\ d_sdmax d = no_max /\
    d_wrap d = None /\ d_method d = method /\ d_samples d = samples /\ d_raw d = linear_raw A B.
  Proof.
    unfold linear_dyn. destruct (is_rect A (length A)) eqn:E1; [|discriminate]. cbn [py_assert bind].
    destruct (length A =? length B)%nat eqn:E2; [|discriminate]. cbn [py_assert bind].
    intros H; injection H as <-. cbn. repeat split; auto.
    - apply Forall_forall. intros r Hr. unfold is_rect in E1. rewrite forallb_forall in E1.
      apply Nat.eqb_eq. apply E1; auto.
    - apply Nat.eqb_eq; auto.
  Qed.

  Lemma vlin_len a x b y : length x = length y -> length (vlin a x b y) = length x.
  Proof. unfold vlin. revert y. induction x; destruct y; simpl; intros; auto; discriminate. Qed.
  Lemma vdot_lin r a x b y : length x = length y -> vdot r (vlin a x b y) = a * vdot r x + b * vdot r y.
  Proof.
    revert x y. induction r as [|k r IH]; intros x y L; simpl; [lra|].
    destruct x, y; simpl in *; try discriminate; [lra|].
    change (zipw (fun p q => a * p + b * q) x y) with (vlin a x b y). rewrite IH by lia. lra.
  Qed.

  Lemma linear_superposition (A B : list (list R)) samples method d t a b s1 s2 u1 u2 :
    linear_dyn (map (map Fin) A) (map (map Fin) B) samples method = Ok d ->
    length s1 = length A -> length s2 = length A -> length u1 = length u2 ->
    Forall (fun r => length r = length u1) B ->
    exists r1 r2, length r1 = length A /\ length r2 = length A /\
      d_raw d t (A1 (map Fin s1)) (A1 (map Fin u1)) = Ok (A1 (map Fin r1)) /\
      d_raw d t (A1 (map Fin s2)) (A1 (map Fin u2)) = Ok (A1 (map Fin r2)) /\
      d_raw d t (A1 (map Fin (vlin a s1 b s2))) (A1 (map Fin (vlin a u1 b u2)))
      = Ok (A1 (map Fin (vlin a r1 b r2))) /\
      compute_state_dot d t (A1 (map Fin s1)) (A1 (map Fin u1)) = Ok (A1 (map Fin r1)) /\
      compute_state_dot d t (A1 (map Fin s2)) (A1 (map Fin u2)) = Ok (A1 (map Fin r2)) /\
      compute_state_dot d t (A1 (map Fin (vlin a s1 b s2))) (A1 (map Fin (vlin a u1 b u2)))
      = Ok (A1 (map Fin (vlin a r1 b r2))).
  Proof.
    intros E L1 L2 Lu HB.
    destruct (linear_dyn_inv _ _ _ _ _ E) as (HA & LAB & H1 & H2 & H3 & H4 & _ & _ & _ & Raw).
    assert (HA' : Forall (fun r => length r = length A) A).
    { rewrite Forall_forall in *. intros r Hr. specialize (HA (map Fin r) (in_map _ _ _ Hr)).
      rewrite !map_length in HA. auto. }
    rewrite !map_length in LAB.
    assert (HA1 : Forall (fun r => length r = length s1) A) by (rewrite L1; auto).
    assert (HA2 : Forall (fun r => length r = length s2) A) by (rewrite L2; auto).
    assert (HB2 : Forall (fun r => length r = length u2) B) by (rewrite <- Lu; auto).
    assert (HA3 : Forall (fun r => length r = length (vlin a s1 b s2)) A).
    { rewrite vlin_len by congruence. auto. }
    assert (HB3 : Forall (fun r => length r = length (vlin a u1 b u2)) B).
    { rewrite vlin_len by congruence. auto. }
    set (r1 := zipw Rplus (map (fun r => vdot r s1) A) (map (fun r => vdot r u1) B)).
    set (r2 := zipw Rplus (map (fun r => vdot r s2) A) (map (fun r => vdot r u2) B)).
    assert (Z : zipw Rplus (map (fun r => vdot r (vlin a s1 b s2)) A) (map (fun r => vdot r (vlin a u1 b u2)) B)
                = vlin a r1 b r2).
    { subst r1 r2. clear - LAB L1 L2 Lu. assert (L : length s1 = length s2) by congruence. clear L1 L2.
      revert B LAB. induction A as [|ra A IH]; intros [|rb B] LAB; try discriminate; auto.
      simpl. rewrite IH by (simpl in LAB; lia). rewrite !vdot_lin by auto. unfold vlin. simpl. f_equal. ring. }
    assert (Lr1 : length r1 = length A) by (unfold r1; rewrite zipw_length; rewrite !map_length; auto).
    assert (Lr2 : length r2 = length A) by (unfold r2; rewrite zipw_length; rewrite !map_length; auto).
    assert (R1 : d_raw d t (A1 (map Fin s1)) (A1 (map Fin u1)) = Ok (A1 (map Fin r1)))
      by (rewrite Raw; apply linear_raw_Fin; auto).
    assert (R2 : d_raw d t (A1 (map Fin s2)) (A1 (map Fin u2)) = Ok (A1 (map Fin r2)))
      by (rewrite Raw; apply linear_raw_Fin; auto).
    assert (R3 : d_raw d t (A1 (map Fin (vlin a s1 b s2))) (A1 (map Fin (vlin a u1 b u2)))
                 = Ok (A1 (map Fin (vlin a r1 b r2))))
      by (rewrite Raw, linear_raw_Fin, Z; auto).
    exists r1, r2. repeat split; auto; apply csd_unlimited; auto; try congruence.
    rewrite !vlin_len; congruence.
  Qed.

  Lemma linear_superposition' (A B : list (list R)) samples method d t a b s1 s2 u1 u2 :
    linear_dyn (map (map Fin) A) (map (map Fin) B) samples method = Ok d ->
    length s1 = length A -> length s2 = length A -> length u1 = length u2 ->
    Forall (fun r => length r = length u1) B ->
    exists r1 r2,
      compute_state_dot d t (A1 (map Fin s1)) (A1 (map Fin u1)) = Ok (A1 (map Fin r1)) /\
      compute_state_dot d t (A1 (map Fin s2)) (A1 (map Fin u2)) = Ok (A1 (map Fin r2)) /\
      compute_state_dot d t (A1 (map Fin (vlin a s1 b s2))) (A1 (map Fin (vlin a u1 b u2)))
      = Ok (A1 (map Fin (vlin a r1 b r2))).
  Proof.
    intros E L1 L2 L3 F.
    destruct (linear_superposition A B samples method d t a b s1 s2 u1 u2 E L1 L2 L3 F)
      as (r1 & r2 & _ & _ & _ & _ & _ & Q). exists r1, r2. exact Q.
  Qed.

  Lemma vaxpy_vlin h a b : forall s1 s2 r1 r2, length s1 = length r1 -> length s2 = length r2 ->
    length s1 = length s2 ->
    vaxpy (vlin a s1 b s2) h (vlin a r1 b r2) = vlin a (vaxpy s1 h r1) b (vaxpy s2 h r2).
  Proof.
    induction s1 as [|p1 s1 IH]; intros [|p2 s2] [|q1 r1] [|q2 r2]; simpl; intros; try discriminate; auto.
    unfold vaxpy, vlin in *. simpl. f_equal; [ring|]. apply IH; lia.
  Qed.

  (** A run of Euler steps of an entity without control limits. *)
  Lemma run_superposition (w : world xr) (A B : list (list R)) samples d dflt cmap k a b :
    linear_dyn (map (map Fin) A) (map (map Fin) B) samples "Euler" = Ok d -> (samples <= 0)%Z ->
    Forall (fun r => length r = k) B ->
    forall (l : list (R * list R * list R)) (e1 e2 e3 : entity xr) s1 s2,
    Forall (fun p => length (snd (fst p)) = k /\ length (snd p) = k) l ->
    (forall e, e = e1 \/ e = e2 \/ e = e3 -> e_dyn e = d /\ e_default e = dflt /\ e_cmin e = no_min /\
       e_cmax e = no_max /\ e_cmap e = cmap) ->
    length s1 = length A -> length s2 = length A ->
    e_state e1 = A1 (map Fin s1) -> e_state e2 = A1 (map Fin s2) ->
    e_state e3 = A1 (map Fin (vlin a s1 b s2)) ->
    exists e1' e2' e3' s1' s2',
      run w e1 (map (fun p => (Fin (fst (fst p)), AArr (A1 (map Fin (snd (fst p)))))) l) = Ok e1' /\
      run w e2 (map (fun p => (Fin (fst (fst p)), AArr (A1 (map Fin (snd p))))) l) = Ok e2' /\
      run w e3 (map (fun p => (Fin (fst (fst p)), AArr (A1 (map Fin (vlin a (snd (fst p)) b (snd p)))))) l) = Ok e3' /\
      e_state e1' = A1 (map Fin s1') /\ e_state e2' = A1 (map Fin s2') /\
      e_state e3' = A1 (map Fin (vlin a s1' b s2')).
  Proof.
    intros E Sa HB.
    destruct (linear_dyn_inv _ _ _ _ _ E) as (HA & LAB & H1 & H2 & H3 & H4 & W & Me & Sm & Raw).
    assert (St : forall (e : entity xr) s h u r, e_dyn e = d /\ e_default e = dflt /\ e_cmin e = no_min /\
        e_cmax e = no_max /\ e_cmap e = cmap -> e_state e = A1 (map Fin s) -> length r = length s ->
        d_raw d (Fin (0/1)) (A1 (map Fin s)) (A1 (map Fin u)) = Ok (A1 (map Fin r)) ->
        let o := entity_step w e (Fin h) (AArr (A1 (map Fin u))) in
        o_res o = Ok tt /\ e_state (o_entity o) = A1 (map Fin (vaxpy s h r)) /\
        (e_dyn (o_entity o) = d /\ e_default (o_entity o) = dflt /\ e_cmin (o_entity o) = no_min /\
        e_cmax (o_entity o) = no_max /\ e_cmap (o_entity o) = cmap)).
    { intros e s h u r (C1 & C2 & C3 & C4 & C5) Es Lr R o. subst o.
      assert (Q := euler_exact w e h s (map Fin u) (map Fin u) r). rewrite C1, C3, C4 in Q.
      destruct (Q H1 H2 H3 H4 W Me ltac:(lia) Es I I (clip_none r32 u) R Lr) as (O1 & O2 & _).
      split; [exact O1|]. split; [exact O2|].
        destruct (entity_step_config w e (Fin h) (AArr (A1 (map Fin u)))) as (Q1 & Q2 & Q3 & Q4 & Q5).
        repeat split; congruence. }
    induction l as [|[[h u1] u2] l IH]; intros e1 e2 e3 s1 s2 Hl C L1 L2 E1 E2 E3.
    - exists e1, e2, e3, s1, s2. repeat split; auto.
    - destruct (Forall_inv Hl) as [K1 K2]. pose proof (Forall_inv_tail Hl) as Hr. cbn [fst snd] in K1, K2.
      destruct (linear_superposition A B _ _ d (Fin (0/1)) a b s1 s2 u1 u2 E L1 L2 ltac:(congruence))
        as (r1 & r2 & Lr1 & Lr2 & R1 & R2 & R3 & _); [rewrite K1; exact HB|].
      assert (L12 : length s1 = length s2) by congruence.
      destruct (St e1 s1 h u1 r1 (C e1 ltac:(auto)) E1 ltac:(congruence) R1) as (O1 & S1 & C1').
      destruct (St e2 s2 h u2 r2 (C e2 ltac:(auto)) E2 ltac:(congruence) R2) as (O2 & S2 & C2').
      assert (L3 : length (vlin a r1 b r2) = length (vlin a s1 b s2)).
      { rewrite (vlin_len a r1), (vlin_len a s1); congruence. }
      destruct (St e3 _ h _ _ (C e3 ltac:(auto)) E3 L3 R3) as (O3 & S3 & C3').
      cbn [map run fst snd]. rewrite O1, O2, O3. cbn [bind].
      eapply IH; [exact Hr| |
        |  | exact S1 | exact S2 | rewrite S3, vaxpy_vlin by congruence; reflexivity].
      + intros e [->|[->| ->]]; assumption.
      + rewrite vaxpy_len. lia.
      + rewrite vaxpy_len. lia.
  Qed.
End X.
