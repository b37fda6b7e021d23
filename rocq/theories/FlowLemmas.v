(** Lemmas on forced Clohessy-Wiltshire motion. *)
From Coq Require Import String List Bool Arith ZArith Lia Reals Lra.
From Flocq Require Import Core.Core.
From Coquelicot Require Import Coquelicot.
From Verif Require Import PyBase Num Arr BaseModel Spec SpecBase XReal NumOrdLemmas ArrLemmas BaseLemmas
  BaseLemmas2 BaseLemmas3 BaseLemmas4 XTac Cwh SpecRk RkLemmas SpecCwh CwhLemmas SpecFlow.
Import List ListNotations.
Local Open Scope R_scope.

Section X.
  Variable r32 : R -> xr.
  Local Hint Extern 0 (Num xr) => exact (XR r32) : typeclass_instances.

  Lemma forced_eq n ax ay az x y z vx vy vz t :
    cw_forced n ax ay az [x; y; z; vx; vy; vz] t =
    let S := sin (n * t) in let C := cos (n * t) in
    [(4 - 3 * C) * x + S / n * vx + 2 / n * (1 - C) * vy + (ax / n^2 * (1 - C) + 2 * ay / n^2 * (n * t - S));
     6 * (S - n * t) * x + y - 2 / n * (1 - C) * vx + (4 * S - 3 * n * t) / n * vy
       + (- 2 * ax / n^2 * (n * t - S) + 4 * ay / n^2 * (1 - C) - 3 / 2 * ay * t^2);
     C * z + S / n * vz + az / n^2 * (1 - C);
     3 * n * S * x + C * vx + 2 * S * vy + (ax / n * S + 2 * ay / n * (1 - C));
     - 6 * n * (1 - C) * x - 2 * S * vx + (4 * C - 3) * vy + (- 2 * ax / n * (1 - C) + 4 * ay / n * S - 3 * ay * t);
     - n * S * z + C * vz + az / n * S].
  Proof. cbv [cw_forced cw_flow cw_push vlin zipw]. rewrite !Rmult_1_l. reflexivity. Qed.

  Lemma forced_len n ax ay az s t : length s = 6%nat -> length (cw_forced n ax ay az s t) = 6%nat.
  Proof. intros L. destruct (len6 s L) as (a & b & c & d & e & f & ->). rewrite forced_eq. reflexivity. Qed.
  Lemma forced_0 n ax ay az s : n <> 0 -> length s = 6%nat -> cw_forced n ax ay az s 0 = s.
  Proof.
    intros Hn L. destruct (len6 s L) as (a & b & c & d & e & f & ->). rewrite forced_eq. cbv zeta.
    rewrite Rmult_0_r, sin_0, cos_0. repeat f_equal; field; auto.
  Qed.

  Lemma forced_solves m n samples method d s fx fy fz : m <> 0 -> n <> 0 -> length s = 6%nat ->
    cwh_dyn (Fin m) (Fin n) samples method = Ok d ->
    solves d (A1 (map Fin [fx; fy; fz])) (cw_forced n (fx / m) (fy / m) (fz / m) s).
  Proof.
    intros Hm Hn L Ed t. destruct (len6 s L) as (x & y & z & vx & vy & vz & ->).
    rewrite !forced_eq. cbv zeta.
    match goal with |- context [map Fin [?p0; ?p1; ?p2; ?p3; ?p4; ?p5]] =>
      pose proof (cwh_csd r32 m n _ _ _ Hm Ed (Fin t) p0 p1 p2 p3 p4 p5 fx fy fz) as Q end.
    match type of Q with _ = Ok (A1 [Fin ?p0; Fin ?p1; Fin ?p2; Fin ?p3; Fin ?p4; Fin ?p5]) =>
      exists [p0; p1; p2; p3; p4; p5] end.
    split; [reflexivity|]. split; [reflexivity|]. split; [exact Q|]. clear Q. cbn [length].
    intros i Hi.
    do 6 (destruct i as [|i]; [
      match goal with |- is_derive _ _ ?v => let v' := eval cbn [nth] in v in change v with v' end;
      eapply is_derive_ext; [intros u; rewrite forced_eq; cbv zeta; cbn [nth]; reflexivity|];
      auto_derive; [repeat split; auto| field; auto]|]). lia.
  Qed.

  Lemma forced_solution m n samples method d sol fx fy fz : m <> 0 -> cwh_dyn (Fin m) (Fin n) samples method = Ok d ->
    length (sol 0) = 6%nat -> solves d (A1 (map Fin [fx; fy; fz])) sol ->
    let g := fun i t => nth i (sol t) 0 in
    (forall t, sol t = [g 0%nat t; g 1%nat t; g 2%nat t; g 3%nat t; g 4%nat t; g 5%nat t]) /\
    (forall t, is_derive (g 0%nat) t (g 3%nat t)) /\ (forall t, is_derive (g 1%nat) t (g 4%nat t)) /\
    (forall t, is_derive (g 2%nat) t (g 5%nat t)) /\
    (forall t, is_derive (g 3%nat) t (3 * n^2 * g 0%nat t + 2 * n * g 4%nat t + fx / m)) /\
    (forall t, is_derive (g 4%nat) t (- 2 * n * g 3%nat t + fy / m)) /\
    (forall t, is_derive (g 5%nat) t (- n^2 * g 2%nat t + fz / m)).
  Proof.
    intros Hm Ed L0 S g.
    assert (G : forall t, sol t = [g 0%nat t; g 1%nat t; g 2%nat t; g 3%nat t; g 4%nat t; g 5%nat t] /\
       is_derive (g 0%nat) t (g 3%nat t) /\ is_derive (g 1%nat) t (g 4%nat t) /\
       is_derive (g 2%nat) t (g 5%nat t) /\
       is_derive (g 3%nat) t (3 * n^2 * g 0%nat t + 2 * n * g 4%nat t + fx / m) /\
       is_derive (g 4%nat) t (- 2 * n * g 3%nat t + fy / m) /\ is_derive (g 5%nat) t (- n^2 * g 2%nat t + fz / m)).
    { intros t. destruct (S t) as (ds & Lt & Ld & E & D). rewrite L0 in *. unfold g in *. clear g.
      destruct (len6 _ Lt) as (x & y & z & vx & vy & vz & Et). rewrite Et in E. cbn [map] in E.
      rewrite (cwh_csd r32 m n _ _ _ Hm Ed) in E.
      match type of E with Ok (A1 [Fin ?p0; Fin ?p1; Fin ?p2; Fin ?p3; Fin ?p4; Fin ?p5]) = _ =>
        change (Ok (A1 (map Fin [p0; p1; p2; p3; p4; p5])) = Ok (A1 (map Fin ds))) in E end.
      apply Ok_Fin_inj in E. subst ds. split; [rewrite Et; reflexivity|].
      rewrite Et. cbn [nth] in *.
      refine (conj _ (conj _ (conj _ (conj _ (conj _ _))))); [pose proof (D 0%nat)|pose proof (D 1%nat)|pose proof (D 2%nat)|pose proof (D 3%nat)
        |pose proof (D 4%nat)|pose proof (D 5%nat)]; cbn [nth] in *;
      match goal with H : (?i < 6)%nat -> is_derive _ _ ?v |- is_derive _ _ ?w =>
        replace w with v by (field; auto); apply H; lia end. }
    refine (conj _ (conj _ (conj _ (conj _ (conj _ (conj _ _)))))); intros t; apply (G t).
  Qed.

  Lemma solutions_equal m n samples method d sol sol' fx fy fz : m <> 0 -> n <> 0 ->
    cwh_dyn (Fin m) (Fin n) samples method = Ok d ->
    length (sol 0) = 6%nat -> sol' 0 = sol 0 ->
    solves d (A1 (map Fin [fx; fy; fz])) sol -> solves d (A1 (map Fin [fx; fy; fz])) sol' ->
    forall t, sol t = sol' t.
  Proof.
    intros Hm Hn Ed L0 I0 S S'.
    assert (L0' : length (sol' 0) = 6%nat) by (rewrite I0; auto).
    destruct (forced_solution m n _ _ _ _ _ _ _ Hm Ed L0 S) as (F & D0 & D1 & D2 & D3 & D4 & D5).
    destruct (forced_solution m n _ _ _ _ _ _ _ Hm Ed L0' S') as (F' & D0' & D1' & D2' & D3' & D4' & D5').
    cbv zeta in *. set (g := fun i t => nth i (sol t) 0) in *. set (g' := fun i t => nth i (sol' t) 0) in *.
    assert (Z : forall t i, (i < 6)%nat -> g i t - g' i t = 0).
    { apply (cw_zero n (fun i t => g i t - g' i t) Hn).
      - intros t. apply (is_derive_minus (g 0%nat) (g' 0%nat)); [apply D0|apply D0'].
      - intros t. apply (is_derive_minus (g 1%nat) (g' 1%nat)); [apply D1|apply D1'].
      - intros t. apply (is_derive_minus (g 2%nat) (g' 2%nat)); [apply D2|apply D2'].
      - intros t. evar_last. apply (is_derive_minus (g 3%nat) (g' 3%nat)); [apply D3|apply D3'].
        unfold minus, plus, opp; simpl. unfold g, g'. ring.
      - intros t. evar_last. apply (is_derive_minus (g 4%nat) (g' 4%nat)); [apply D4|apply D4'].
        unfold minus, plus, opp; simpl. unfold g, g'. ring.
      - intros t. evar_last. apply (is_derive_minus (g 5%nat) (g' 5%nat)); [apply D5|apply D5'].
        unfold minus, plus, opp; simpl. unfold g, g'. ring.
      - intros i _. unfold g, g'. rewrite I0. ring. }
    intros t. rewrite (F t), (F' t). unfold g, g' in Z. fin_list;
    match goal with |- nth ?i _ _ = _ => pose proof (Z t i ltac:(lia)); lra end.
  Qed.

  Lemma forced_unique m n samples method d sol fx fy fz : m <> 0 -> n <> 0 ->
    cwh_dyn (Fin m) (Fin n) samples method = Ok d ->
    length (sol 0) = 6%nat -> solves d (A1 (map Fin [fx; fy; fz])) sol ->
    forall t, sol t = cw_forced n (fx / m) (fy / m) (fz / m) (sol 0) t.
  Proof.
    intros Hm Hn Ed L0 S. apply (solutions_equal m n samples method d _ _ fx fy fz Hm Hn Ed L0); auto.
    - apply forced_0; auto.
    - apply (forced_solves m n samples method); auto.
  Qed.

  Lemma solves_shift m n samples method d fx fy fz sol c : m <> 0 ->
    cwh_dyn (Fin m) (Fin n) samples method = Ok d -> length (sol 0) = 6%nat ->
    solves d (A1 (map Fin [fx; fy; fz])) sol ->
    solves d (A1 (map Fin [fx; fy; fz])) (fun t => sol (c + t)).
  Proof.
    intros Hm Ed L0 S t. destruct (S (c + t)) as (ds & L1 & L2 & E & D).
    assert (Lc : length (sol (c + 0)) = length (sol 0)) by (destruct (S (c + 0)) as (? & ? & _); auto).
    exists ds. rewrite Lc. split; [exact L1|]. split; [exact L2|]. split.
    - rewrite L0 in L1. destruct (len6 _ L1) as (p & q & r & u & v & w & Et). rewrite Et in *.
      cbn [map] in *. rewrite (cwh_csd r32 m n _ _ _ Hm Ed) in *. exact E.
    - intros i Hi. specialize (D i Hi).
      evar_last.
      + apply (is_derive_comp (fun t => nth i (sol t) 0) (fun t => c + t) t (nth i ds 0) 1).
        * exact D.
        * auto_derive; [exact I|ring].
      + unfold scal; simpl; unfold mult; simpl. ring.
  Qed.

  Lemma forced_semigroup n ax ay az s a b : n <> 0 -> length s = 6%nat ->
    cw_forced n ax ay az s (a + b) = cw_forced n ax ay az (cw_forced n ax ay az s a) b.
  Proof.
    intros Hn L.
    destruct (cwh_dyn (Fin 1) (Fin n) 0 "Euler") as [d|] eqn:Ed.
    2:{ exfalso. unfold cwh_dyn, generate_cwh_matrices, pydiv, linear_dyn in Ed. revert Ed. cbn.
        rewrite (Req_bool_false 1 (0/1)) by lra. discriminate. }
    pose proof (forced_solves 1 n _ _ _ s ax ay az ltac:(lra) Hn L Ed) as S.
    replace (ax / 1) with ax in S by field. replace (ay / 1) with ay in S by field.
    replace (az / 1) with az in S by field.
    pose proof (solves_shift 1 n _ _ _ ax ay az _ a ltac:(lra) Ed (forced_len _ _ _ _ _ _ L) S) as S'.
    pose proof (forced_unique 1 n _ _ _ (fun t => cw_forced n ax ay az s (a + t)) ax ay az ltac:(lra) Hn Ed (forced_len _ _ _ _ _ _ L) S' b) as Q.
    cbv beta in Q. rewrite Rplus_0_r in Q. rewrite Q.
    replace (ax / 1) with ax by field. replace (ay / 1) with ay by field. replace (az / 1) with az by field.
    reflexivity.
  Qed.

  (** ** Steps with an exact solver *)
  Lemma exact_step (w : world xr) m n samples a1 a2 a3 a4 a5 a6 e0 (e : entity xr) h s fx fy fz : m <> 0 -> n <> 0 ->
    cwh_spacecraft (Fin m) (Fin n) samples "RK45" a1 a2 a3 a4 a5 a6 = Ok e0 ->
    e_dyn e = e_dyn e0 -> e_cmin e = e_cmin e0 -> e_cmax e = e_cmax e0 ->
    (forall gx gy gz, exact_on w (fun t x => compute_state_dot (e_dyn e0) t x (A1 (map Fin [gx; gy; gz])))) ->
    length s = 6%nat -> e_state e = A1 (map Fin s) ->
    let o := entity_step w e (Fin h) (AArr (A1 (map Fin [fx; fy; fz]))) in
    o_res o = Ok tt /\
    e_state (o_entity o) = A1 (map Fin (cw_forced n (clipR (-1) 1 fx / m) (clipR (-1) 1 fy / m) (clipR (-1) 1 fz / m) s h)).
  Proof.
    intros Hm Hn E De C1 C2 X L Es o. subst o.
    destruct (cwh_spacecraft_dyn r32 _ _ _ _ _ _ _ _ _ _ _ E) as (Ed & _ & Cmi & Cma & _).
    destruct (cwh_plain r32 _ _ _ _ _ Ed) as (H1 & H2 & H3 & H4 & H5 & H6 & H7).
    unfold entity_step. cbn [decode_action]. rewrite C1, C2, Cmi, Cma.
    replace (-1/1) with (-1) by field. replace (1/1) with 1 by field.
    destruct (out_of_bounds_spec (A1 (map Fin [fx; fy; fz])) (A0 (Fin (-1))) (A0 (Fin 1)) I I) as (b & Eb & _).
    rewrite Eb, np_clip_scalar. unfold dyn_step, dyn__step. rewrite De, H6. cbn [String.eqb Ascii.eqb Bool.eqb].
    rewrite Es. set (s' := cw_forced n _ _ _ s h). set (te := if (0 <? _)%Z then _ else _).
    cbn [map].
    destruct (X (clipR (-1) 1 fx) (clipR (-1) 1 fy) (clipR (-1) 1 fz) h te
                (cw_forced n (clipR (-1) 1 fx / m) (clipR (-1) 1 fy / m) (clipR (-1) 1 fz / m) s))
      as (sol & rows & Q1 & Q2).
    - intros t. destruct (forced_solves m n _ _ _ s (clipR (-1) 1 fx) (clipR (-1) 1 fy) (clipR (-1) 1 fz) Hm Hn L Ed t)
        as (ds & ?). exists ds. assumption.
    - intros ts Ets. unfold te in Ets. rewrite H7 in Ets. destruct (0 <? samples)%Z eqn:Sa; [|discriminate].
      injection Ets as <-. apply Z.ltb_lt in Sa. apply (t_eval_last r32). lia.
    - rewrite forced_0 in Q1 by auto. cbn [map] in Q1. fold s' in Q2. rewrite Q1, Q2.
      destruct (rows ++ [map Fin s'])%list as [|r0 rs] eqn:Er; [destruct rows; discriminate|].
      rewrite <- Er. unfold last_row. rewrite rev_app_distr. cbn [rev app bind].
      assert (Ls : length s' = 6%nat) by (apply forced_len; auto).
      fold s'. destruct (len6 _ Ls) as (p & q & r & u & v & z & Et). rewrite Et. cbn [map].
      rewrite (cwh_csd r32 m n _ _ _ Hm Ed). cbn [bind].
      rewrite H1, H2. change (A1 [Fin p; Fin q; Fin r; Fin u; Fin v; Fin z]) with (A1 (map Fin [p; q; r; u; v; z])).
      rewrite clip_none. cbn [bind]. unfold wrap_angles. rewrite H5. cbn [bind].
      split; reflexivity.
  Qed.

  (** A run of steps, each with its own constant thrust. *)
  Lemma exact_run (w : world xr) m n samples a1 a2 a3 a4 a5 a6 e0 : m <> 0 -> n <> 0 ->
    cwh_spacecraft (Fin m) (Fin n) samples "RK45" a1 a2 a3 a4 a5 a6 = Ok e0 ->
    (forall gx gy gz, exact_on w (fun t x => compute_state_dot (e_dyn e0) t x (A1 (map Fin [gx; gy; gz])))) ->
    forall (l : list (R * (R * R * R))) (e : entity xr) s,
    e_dyn e = e_dyn e0 -> e_cmin e = e_cmin e0 -> e_cmax e = e_cmax e0 ->
    length s = 6%nat -> e_state e = A1 (map Fin s) ->
    exists e', run w e (map (fun p => let '(h, (fx, fy, fz)) := p in (Fin h, AArr (A1 (map Fin [fx; fy; fz])))) l) = Ok e' /\
      e_state e' = A1 (map Fin (fold_left (fun s p => let '(h, (fx, fy, fz)) := p in
        cw_forced n (clipR (-1) 1 fx / m) (clipR (-1) 1 fy / m) (clipR (-1) 1 fz / m) s h) l s)).
  Proof.
    intros Hm Hn E X. induction l as [|[h [[fx fy] fz]] l IH]; intros e s De C1 C2 L Es.
    - exists e. split; [reflexivity|exact Es].
    - destruct (exact_step w m n samples _ _ _ _ _ _ e0 e h s fx fy fz Hm Hn E De C1 C2 X L Es) as (O & Q).
      pose proof (entity_step_config w e (Fin h) (AArr (A1 (map Fin [fx; fy; fz])))) as (K1 & _ & K3 & K4 & _).
      set (o := entity_step w e (Fin h) (AArr (A1 (map Fin [fx; fy; fz])))) in *.
      rewrite map_cons. cbn [run]. fold o. rewrite O. cbn [bind fold_left].
      apply IH; try congruence. apply forced_len; exact L.
  Qed.

  Lemma forced_run_const n ax ay az : n <> 0 -> forall (hs : list R) s, length s = 6%nat ->
    fold_left (fun s h => cw_forced n ax ay az s h) hs s = cw_forced n ax ay az s (fold_right Rplus 0 hs).
  Proof.
    intros Hn. induction hs as [|h hs IH]; intros s L.
    - cbn. rewrite forced_0; auto.
    - cbn [fold_left fold_right]. rewrite IH by (apply forced_len; auto). rewrite <- forced_semigroup; auto.
  Qed.

  Lemma exact_run_const (w : world xr) m n samples a1 a2 a3 a4 a5 a6 e0 s fx fy fz hs : m <> 0 -> n <> 0 ->
    cwh_spacecraft (Fin m) (Fin n) samples "RK45" a1 a2 a3 a4 a5 a6 = Ok e0 ->
    (forall gx gy gz, exact_on w (fun t x => compute_state_dot (e_dyn e0) t x (A1 (map Fin [gx; gy; gz])))) -> length s = 6%nat ->
    exists e', run w (set_state e0 (A1 (map Fin s))) (map (fun h => (Fin h, AArr (A1 (map Fin [fx; fy; fz])))) hs) = Ok e' /\
      e_state e' = A1 (map Fin (cw_forced n (clipR (-1) 1 fx / m) (clipR (-1) 1 fy / m) (clipR (-1) 1 fz / m) s
                                  (fold_right Rplus 0 hs))).
  Proof.
    intros Hm Hn E X L.
    destruct (exact_run w m n samples _ _ _ _ _ _ e0 Hm Hn E X (map (fun h => (h, (fx, fy, fz))) hs)
      (set_state e0 (A1 (map Fin s))) s) as (e' & R1 & R2); auto.
    exists e'. rewrite map_map in R1. split; [exact R1|]. rewrite R2, <- (forced_run_const n _ _ _ Hn hs s L).
    do 2 f_equal. clear. revert s. induction hs as [|h hs IH]; intros s; [reflexivity|]. cbn [map fold_left]. apply IH.
  Qed.
End X.

(** ** Convergence of the explicit Euler method *)
Lemma nth_vaxpy s c d i : length d = length s -> nth i (vaxpy s c d) 0 = nth i s 0 + c * nth i d 0.
Proof.
  unfold vaxpy. revert d i. induction s as [|a s IH]; intros [|b d] i L; try discriminate.
  - destruct i; cbn; ring.
  - destruct i as [|i]; cbn; [ring|]. apply IH. cbn in L. lia.
Qed.
Lemma len_vaxpy s c d : length d = length s -> length (vaxpy s c d) = length s.
Proof.
  unfold vaxpy. revert d. induction s as [|a s IH]; intros [|b d] L; try discriminate; [reflexivity|].
  cbn. f_equal. apply IH. cbn in L. lia.
Qed.

Fixpoint euler_iter (F : list R -> list R) (h : R) (k : nat) (s : list R) : list R :=
  match k with O => s | S k' => let s' := euler_iter F h k' s in vaxpy s' h (F s') end.

Section Conv.
  Variable k : nat.
  Variable F : list R -> list R.
  Variable L M T : R.
  Hypothesis HL : 0 <= L.
  Hypothesis HM : 0 <= M.
  Hypothesis lenF : forall s, length s = k -> length (F s) = k.
  Hypothesis lip : forall s s' eps, length s = k -> within eps s s' -> within (L * eps) (F s) (F s').

  Lemma euler_len h j s : length s = k -> length (euler_iter F h j s) = k.
  Proof.
    intros Ls. induction j; [exact Ls|]. cbn [euler_iter]. cbv zeta. rewrite len_vaxpy; auto.
    rewrite lenF by auto. auto.
  Qed.
  Lemma one_step h s p e1 e2 : 0 <= h -> length s = k -> within e1 s p ->
    forall q, within e2 (vaxpy p h (F p)) q -> within ((1 + L * h) * e1 + e2) (vaxpy s h (F s)) q.
  Proof.
    intros Hh Ls W q [Lq Wq]. pose proof (lip s p e1 Ls W) as [LF WF]. destruct W as [Lsp W].
    assert (L1 : length (F s) = length s) by (rewrite lenF; auto).
    assert (L2 : length (F p) = length p) by (rewrite lenF; congruence).
    split; [rewrite len_vaxpy in * by auto; congruence|].
    intros i. specialize (Wq i). specialize (W i). specialize (WF i).
    rewrite nth_vaxpy in * by auto.
    replace (nth i s 0 + h * nth i (F s) 0 - nth i q 0) with
      ((nth i s 0 - nth i p 0) + h * (nth i (F s) 0 - nth i (F p) 0) + (nth i p 0 + h * nth i (F p) 0 - nth i q 0)) by ring.
    eapply Rle_trans; [apply Rabs_triang|]. eapply Rle_trans; [apply Rplus_le_compat_r, Rabs_triang|].
    rewrite (Rabs_mult h), (Rabs_pos_eq h Hh).
    assert (h * Rabs (nth i (F s) 0 - nth i (F p) 0) <= h * (L * e1)) by (apply Rmult_le_compat_l; auto).
    lra.
  Qed.

  Lemma converge (phi : R -> list R) h N : 0 <= h -> INR N * h <= T -> length (phi 0) = k ->
    (forall t, 0 <= t -> t + h <= T -> within (M * h^2) (vaxpy (phi t) h (F (phi t))) (phi (t + h))) ->
    forall j, (j <= N)%nat -> within (M * h^2 * INR j * (1 + L * h)^j) (euler_iter F h j (phi 0)) (phi (INR j * h)).
  Proof.
    intros Hh HN Lp Loc. induction j as [|j IH]; intros Hj.
    - cbn [euler_iter INR]. rewrite Rmult_0_l. split; [reflexivity|]. intros i. rewrite Rminus_diag_eq by auto.
      rewrite Rabs_R0. lra.
    - specialize (IH ltac:(lia)). cbn [euler_iter]. cbv zeta.
      assert (J : INR (S j) * h <= T).
      { eapply Rle_trans; [|exact HN]. apply Rmult_le_compat_r; [exact Hh|]. apply le_INR. lia. }
      assert (J0 : 0 <= INR j * h) by (apply Rmult_le_pos; [apply pos_INR|exact Hh]).
      rewrite S_INR in *.
      pose proof (Loc (INR j * h) J0 ltac:(lra)) as Q. replace (INR j * h + h) with ((INR j + 1) * h) in Q by ring.
      pose proof (one_step h _ _ _ _ Hh (euler_len h j _ Lp) IH _ Q) as [W1 W2].
      split; [exact W1|]. intros i. eapply Rle_trans; [apply W2|].
      cbn [pow].
      assert (P : 1 <= (1 + L * h) ^ j) by (apply pow_R1_Rle; assert (0 <= L * h) by (apply Rmult_le_pos; auto); lra).
      assert (P1 : 0 <= M * h ^ 2) by (apply Rmult_le_pos; [auto|apply pow2_ge_0]).
      assert (P2 : 0 <= L * h) by (apply Rmult_le_pos; auto).
      assert (P3 : 1 <= (1 + L * h) * (1 + L * h) ^ j) by nra.
      nra.
  Qed.

  Lemma converge_bound (phi : R -> list R) N : (0 < N)%nat -> 0 <= T -> length (phi 0) = k ->
    (forall h t, 0 <= h -> 0 <= t -> t + h <= T -> within (M * h^2) (vaxpy (phi t) h (F (phi t))) (phi (t + h))) ->
    within (M * T * exp (L * T) * (T / INR N)) (euler_iter F (T / INR N) N (phi 0)) (phi T).
  Proof.
    intros HN HT Lp Loc. assert (NP : 0 < INR N) by (apply lt_0_INR; lia).
    set (h := T / INR N). assert (Hh : 0 <= h) by (apply Rmult_le_pos; [auto|left; apply Rinv_0_lt_compat; auto]).
    assert (Nh : INR N * h = T) by (unfold h; field; lra).
    destruct (converge phi h N Hh ltac:(lra) Lp (fun t => Loc h t Hh) N (le_n _)) as [W1 W2].
    rewrite Nh in *. split; [exact W1|]. intros i. eapply Rle_trans; [apply W2|].
    replace (M * h ^ 2 * INR N * (1 + L * h) ^ N) with (M * h * (INR N * h) * (1 + L * h) ^ N) by ring.
    rewrite Nh.
    assert (Q : (1 + L * h) ^ N <= exp (L * T)).
    { replace (exp (L * T)) with (exp (L * h) ^ N).
      - apply pow_incr. assert (0 <= L * h) by (apply Rmult_le_pos; auto). split; [lra|]. apply exp_ineq1_le.
      - rewrite <- Nh. replace (L * (INR N * h)) with (INR N * (L * h)) by ring.
        generalize (L * h). clear. intros c. induction N; [cbn; rewrite Rmult_0_l, exp_0; reflexivity|].
        rewrite S_INR. cbn [pow]. rewrite IHN, <- exp_plus. f_equal. ring. }
    assert (P : 0 <= M * h * T) by (apply Rmult_le_pos; [apply Rmult_le_pos; auto|auto]).
    replace (M * T * exp (L * T) * h) with (M * h * T * exp (L * T)) by ring.
    apply Rmult_le_compat_l; auto.
  Qed.
End Conv.

Lemma bounded_on (f : R -> R) T : (forall t, ex_derive f t) -> 0 <= T ->
  exists B, forall t, 0 <= t <= T -> Rabs (f t) <= B.
Proof.
  intros D HT.
  destruct (continuity_ab_maj (fun t => Rabs (f t)) 0 T HT) as (x & Hx & _).
  - intros c _. apply continuity_pt_filterlim. apply (continuous_comp f Rabs).
    + apply (@ex_derive_continuous R_AbsRing R_NormedModule), D.
    + apply continuous_Rabs.
  - exists (Rabs (f x)). exact Hx.
Qed.

(** First order Taylor remainder. *)
Lemma taylor1 (f f1 f2 : R -> R) t h M : 0 <= h -> (forall u, is_derive f u (f1 u)) -> (forall u, is_derive f1 u (f2 u)) ->
  (forall u, t <= u <= t + h -> Rabs (f2 u) <= M) -> Rabs (f t + h * f1 t - f (t + h)) <= M * h^2.
Proof.
  intros Hh D1 D2 B.
  assert (M0 : 0 <= M) by (eapply Rle_trans; [apply Rabs_pos|apply (B t)]; lra).
  destruct (MVT_gen f t (t + h) f1) as (c & Hc & E).
  - intros; apply D1.
  - intros x _. apply continuity_pt_filterlim, (@ex_derive_continuous R_AbsRing R_NormedModule). eexists. apply D1.
  - rewrite Rmin_left, Rmax_right in Hc by lra.
    destruct (MVT_gen f1 t c f2) as (c2 & Hc2 & E2).
    + intros; apply D2.
    + intros x _. apply continuity_pt_filterlim, (@ex_derive_continuous R_AbsRing R_NormedModule). eexists. apply D2.
    + rewrite Rmin_left, Rmax_right in Hc2 by lra.
      replace (f t + h * f1 t - f (t + h)) with (h * (f1 t - f1 c)) by (replace (f (t + h)) with (f t + f1 c * (t + h - t)) by lra; ring).
      replace (f1 t - f1 c) with (- (f2 c2 * (c - t))) by lra.
      rewrite Rabs_mult, Rabs_Ropp, Rabs_mult, (Rabs_pos_eq h), (Rabs_pos_eq (c - t)) by lra.
      pose proof (B c2 ltac:(lra)) as Bc. pose proof (Rabs_pos (f2 c2)).
      assert (Rabs (f2 c2) * (c - t) <= M * h) by (apply Rmult_le_compat; lra).
      replace (M * h^2) with (h * (M * h)) by ring. apply Rmult_le_compat_l; lra.
Qed.

(** The Clohessy-Wiltshire field. *)
Definition cwlin (n : R) (v : list R) : list R :=
  match v with
  | [x; y; z; vx; vy; vz] => [vx; vy; vz; 3 * n^2 * x + 2 * n * vy; - 2 * n * vx; - n^2 * z]
  | _ => v
  end.
Definition cwF (n ax ay az : R) (v : list R) : list R := vaxpy (cwlin n v) 1 [0; 0; 0; ax; ay; az].
Definition cwL (n : R) : R := 1 + 3 * n^2 + 2 * Rabs n.

Lemma cwL_pos n : 1 <= cwL n.
Proof. unfold cwL. pose proof (Rabs_pos n). pose proof (pow2_ge_0 n). lra. Qed.

Lemma cwlin_bound n v B : length v = 6%nat -> (forall i, Rabs (nth i v 0) <= B) ->
  forall i, Rabs (nth i (cwlin n v) 0) <= cwL n * B.
Proof.
  intros Lv Hv. destruct (len6 v Lv) as (x & y & z & vx & vy & vz & ->). cbn [cwlin].
  pose proof (Hv 0%nat) as Hx. pose proof (Hv 2%nat) as Hz.
  pose proof (Hv 3%nat) as Hvx. pose proof (Hv 4%nat) as Hvy. pose proof (Hv 5%nat) as Hvz.
  cbn [nth] in Hx, Hz, Hvx, Hvy, Hvz.
  assert (B0 : 0 <= B) by (eapply Rle_trans; [apply Rabs_pos|exact Hx]).
  pose proof (Rabs_pos n) as N0. pose proof (pow2_ge_0 n) as N2. pose proof (cwL_pos n) as L1.
  assert (A1 : Rabs (3 * n^2 * x) <= 3 * n^2 * B).
  { rewrite Rabs_mult, (Rabs_pos_eq (3 * n^2)) by lra. apply Rmult_le_compat_l; lra. }
  assert (A2 : forall u, Rabs u <= B -> Rabs (2 * n * u) <= 2 * Rabs n * B).
  { intros u Hu. rewrite !Rabs_mult, (Rabs_pos_eq 2) by lra. apply Rmult_le_compat_l; lra. }
  assert (A3 : Rabs (n^2 * z) <= n^2 * B).
  { rewrite Rabs_mult, (Rabs_pos_eq (n^2)) by lra. apply Rmult_le_compat_l; lra. }
  assert (K : forall c, c <= cwL n -> c * B <= cwL n * B) by (intros; apply Rmult_le_compat_r; lra).
  unfold cwL in *.
  intros i. destruct i as [|[|[|[|[|[|i]]]]]]; cbn [nth].
  - eapply Rle_trans; [exact Hvx|]. replace B with (1 * B) at 1 by ring. apply K. lra.
  - eapply Rle_trans; [exact Hvy|]. replace B with (1 * B) at 1 by ring. apply K. lra.
  - eapply Rle_trans; [exact Hvz|]. replace B with (1 * B) at 1 by ring. apply K. lra.
  - eapply Rle_trans; [apply Rabs_triang|]. specialize (A2 vy Hvy).
    apply Rle_trans with ((3 * n^2 + 2 * Rabs n) * B); [lra|]. apply K. lra.
  - replace (- 2 * n * vx) with (- (2 * n * vx)) by ring. rewrite Rabs_Ropp. eapply Rle_trans; [apply A2, Hvx|]. apply K. lra.
  - replace (- n^2 * z) with (- (n^2 * z)) by ring. rewrite Rabs_Ropp. eapply Rle_trans; [exact A3|]. apply K. lra.
  - destruct i; rewrite Rabs_R0; apply Rmult_le_pos; lra.
Qed.

Lemma cwF_eq n ax ay az x y z vx vy vz : cwF n ax ay az [x; y; z; vx; vy; vz] =
  [vx; vy; vz; 3 * n^2 * x + 2 * n * vy + ax; - 2 * n * vx + ay; - n^2 * z + az].
Proof. cbv [cwF cwlin vaxpy zipw]. fin_list; ring. Qed.
Lemma cwF_len n ax ay az v : length v = 6%nat -> length (cwF n ax ay az v) = 6%nat.
Proof. intros L. destruct (len6 v L) as (x & y & z & vx & vy & vz & ->). rewrite cwF_eq. reflexivity. Qed.
Lemma cwF_lip n ax ay az s s' eps : length s = 6%nat -> within eps s s' ->
  within (cwL n * eps) (cwF n ax ay az s) (cwF n ax ay az s').
Proof.
  intros L [L' W]. destruct (len6 s L) as (x & y & z & vx & vy & vz & ->).
  destruct (len6 s' ltac:(rewrite <- L'; reflexivity)) as (x' & y' & z' & vx' & vy' & vz' & ->).
  split; [rewrite !cwF_eq; reflexivity|]. rewrite !cwF_eq.
  pose proof (cwlin_bound n [x - x'; y - y'; z - z'; vx - vx'; vy - vy'; vz - vz'] eps eq_refl) as Q.
  intros i. eapply Rle_trans; [|apply (Q ltac:(intros j; specialize (W j); destruct j as [|[|[|[|[|[|j]]]]]]; cbn [nth] in *; try exact W; destruct j; cbn in *; rewrite ?Rminus_0_r in W; auto) i)].
  right. cbn [cwlin]. destruct i as [|[|[|[|[|[|i]]]]]]; cbn [nth]; f_equal; try ring. destruct i; ring.
Qed.

Lemma lin_derive (f1 f2 : R -> R) d1 d2 a b c u : is_derive f1 u d1 -> is_derive f2 u d2 ->
  is_derive (fun u => a * f1 u + b * f2 u + c) u (a * d1 + b * d2).
Proof.
  intros D1 D2. auto_derive; [repeat split; eexists; eassumption|]. rwD D1. rwD D2. ring.
Qed.
Lemma lin_derive1 (f1 : R -> R) d1 a c u : is_derive f1 u d1 -> is_derive (fun u => a * f1 u + c) u (a * d1).
Proof. intros D1. auto_derive; [repeat split; eexists; eassumption|]. rwD D1. ring. Qed.

Section Y.
  Variable r32 : R -> xr.
  Local Hint Extern 0 (Num xr) => exact (XR r32) : typeclass_instances.

  Lemma euler_run (w : world xr) m n samples a1 a2 a3 a4 a5 a6 e0 fx fy fz h : m <> 0 -> (samples <= 0)%Z ->
    cwh_spacecraft (Fin m) (Fin n) samples "Euler" a1 a2 a3 a4 a5 a6 = Ok e0 ->
    -1 <= fx <= 1 -> -1 <= fy <= 1 -> -1 <= fz <= 1 ->
    forall k s, length s = 6%nat ->
    exists e', run w (set_state e0 (A1 (map Fin s))) (repeat (Fin h, AArr (A1 (map Fin [fx; fy; fz]))) k) = Ok e' /\
      e_state e' = A1 (map Fin (euler_iter (cwF n (fx / m) (fy / m) (fz / m)) h k s)).
  Proof.
    intros Hm Sa E Hx Hy Hz k s L.
    assert (G : forall e s, e_dyn e = e_dyn e0 -> e_cmin e = e_cmin e0 -> e_cmax e = e_cmax e0 -> length s = 6%nat ->
      e_state e = A1 (map Fin s) ->
      exists e', run w e (repeat (Fin h, AArr (A1 (map Fin [fx; fy; fz]))) k) = Ok e' /\
        e_state e' = A1 (map Fin (Nat.iter k (fun s => vaxpy s h (cwF n (fx / m) (fy / m) (fz / m) s)) s))).
    { clear s L. induction k as [|k IH]; intros e s De C1 C2 L Es.
      - exists e. split; [reflexivity|exact Es].
      - destruct (cwh_spacecraft_dyn r32 _ _ _ _ _ _ _ _ _ _ _ E) as (Ed & _ & Cmi & Cma & _).
        destruct (cwh_plain r32 _ _ _ _ _ Ed) as (H1 & H2 & H3 & H4 & H5 & H6 & H7).
        destruct (len6 s L) as (x & y & z & vx & vy & vz & Es').
        destruct (euler_exact r32 w e h s [Fin fx; Fin fy; Fin fz] [Fin fx; Fin fy; Fin fz]
          (cwF n (fx / m) (fy / m) (fz / m) s)) as (O & Q & _); rewrite ?De, ?C1, ?C2, ?Cmi, ?Cma; auto.
        + congruence.
        + exact I.
        + exact I.
        + change [Fin fx; Fin fy; Fin fz] with (map Fin [fx; fy; fz]). rewrite np_clip_scalar. cbn [map].
          rewrite !clipR_id by lra. reflexivity.
        + rewrite Es', cwF_eq. cbn [map]. exact (cwh_raw r32 m n _ _ _ Hm Ed _ x y z vx vy vz fx fy fz).
        + rewrite cwF_len; auto.
        + pose proof (entity_step_config w e (Fin h) (AArr (A1 (map Fin [fx; fy; fz])))) as (K1 & _ & K3 & K4 & _).
          cbn [map] in K1, K3, K4.
          cbn [repeat map run]. set (o := entity_step _ _ _ _) in *. rewrite O. cbn [bind].
          destruct (IH (o_entity o) (vaxpy s h (cwF n (fx / m) (fy / m) (fz / m) s))) as (e' & R1 & R2); try congruence.
          * rewrite len_vaxpy; auto. rewrite cwF_len; auto.
          * exists e'. split; [exact R1|]. rewrite R2. do 2 f_equal. clear.
            induction k; [reflexivity|]. cbn [Nat.iter nat_rect] in *. 
            change (vaxpy (Nat.iter k (fun s => vaxpy s h (cwF n (fx / m) (fy / m) (fz / m) s)) (vaxpy s h (cwF n (fx / m) (fy / m) (fz / m) s))) h
              (cwF n (fx / m) (fy / m) (fz / m) (Nat.iter k (fun s => vaxpy s h (cwF n (fx / m) (fy / m) (fz / m) s)) (vaxpy s h (cwF n (fx / m) (fy / m) (fz / m) s)))) =
              vaxpy (Nat.iter (S k) (fun s => vaxpy s h (cwF n (fx / m) (fy / m) (fz / m) s)) s) h
              (cwF n (fx / m) (fy / m) (fz / m) (Nat.iter (S k) (fun s => vaxpy s h (cwF n (fx / m) (fy / m) (fz / m) s)) s))).
            rewrite IHk. reflexivity. }
    destruct (G (set_state e0 (A1 (map Fin s))) s) as (e' & R1 & R2); auto.
    exists e'. split; [exact R1|]. rewrite R2. do 2 f_equal. clear.
    induction k; [reflexivity|]. cbn [euler_iter]. cbv zeta. rewrite <- IHk. reflexivity.
  Qed.

  Lemma cwh_converges (w : world xr) m n samples a1 a2 a3 a4 a5 a6 e0 s fx fy fz T : m <> 0 -> n <> 0 -> (samples <= 0)%Z ->
    cwh_spacecraft (Fin m) (Fin n) samples "Euler" a1 a2 a3 a4 a5 a6 = Ok e0 ->
    -1 <= fx <= 1 -> -1 <= fy <= 1 -> -1 <= fz <= 1 -> length s = 6%nat -> 0 <= T ->
    exists K, forall k, (0 < k)%nat -> exists e' s',
      run w (set_state e0 (A1 (map Fin s))) (repeat (Fin (T / INR k), AArr (A1 (map Fin [fx; fy; fz]))) k) = Ok e' /\
      e_state e' = A1 (map Fin s') /\
      within (K * (T / INR k)) s' (cw_forced n (fx / m) (fy / m) (fz / m) s T).
  Proof.
    intros Hm Hn Sa E Hx Hy Hz L HT.
    destruct (cwh_spacecraft_dyn r32 _ _ _ _ _ _ _ _ _ _ _ E) as (Ed & _ & _).
    set (phi := cw_forced n (fx / m) (fy / m) (fz / m) s).
    pose proof (forced_solves r32 m n _ _ _ s fx fy fz Hm Hn L Ed) as S. fold phi in S.
    assert (L0 : length (phi 0) = 6%nat) by (apply forced_len; auto).
    assert (P0 : phi 0 = s) by (apply forced_0; auto).
    destruct (forced_solution r32 m n _ _ _ _ _ _ _ Hm Ed L0 S) as (F & D0 & D1 & D2 & D3 & D4 & D5).
    cbv zeta in *. set (g := fun i t => nth i (phi t) 0) in *.
    assert (Bd : exists B, forall t i, 0 <= t <= T -> Rabs (nth i (phi t) 0) <= B).
    { destruct (bounded_on (g 0%nat) T) as (b0 & B0); auto. { intros t; eexists; apply D0. }
      destruct (bounded_on (g 1%nat) T) as (b1 & B1); auto. { intros t; eexists; apply D1. }
      destruct (bounded_on (g 2%nat) T) as (b2 & B2); auto. { intros t; eexists; apply D2. }
      destruct (bounded_on (g 3%nat) T) as (b3 & B3); auto. { intros t; eexists; apply D3. }
      destruct (bounded_on (g 4%nat) T) as (b4 & B4); auto. { intros t; eexists; apply D4. }
      destruct (bounded_on (g 5%nat) T) as (b5 & B5); auto. { intros t; eexists; apply D5. }
      assert (P : forall i t, 0 <= t <= T -> 0 <= Rabs (g i t)) by (intros; apply Rabs_pos).
      exists (b0 + b1 + b2 + b3 + b4 + b5). intros t i Ht.
      specialize (B0 t Ht). specialize (B1 t Ht). specialize (B2 t Ht). specialize (B3 t Ht). specialize (B4 t Ht). specialize (B5 t Ht).
      pose proof (P 0%nat t Ht). pose proof (P 1%nat t Ht). pose proof (P 2%nat t Ht). pose proof (P 3%nat t Ht).
      pose proof (P 4%nat t Ht). pose proof (P 5%nat t Ht).
      destruct i as [|[|[|[|[|[|i]]]]]]; fold (g 0%nat t) (g 1%nat t) (g 2%nat t) (g 3%nat t) (g 4%nat t) (g 5%nat t); try lra.
      rewrite (F t). cbn [nth]. replace (match i with O | _ => 0 end) with 0 by (destruct i; reflexivity).
      rewrite Rabs_R0. lra. }
    destruct Bd as (B & HB).
    set (ax := fx / m) in *. set (ay := fy / m) in *. set (az := fz / m) in *.
    set (B1 := cwL n * B + (Rabs ax + Rabs ay + Rabs az)).
    set (M := cwL n * B1).
    assert (B0 : 0 <= B) by (eapply Rle_trans; [apply Rabs_pos|apply (HB 0 0%nat)]; lra).
    assert (HF : forall t i, 0 <= t <= T -> Rabs (nth i (cwF n ax ay az (phi t)) 0) <= B1).
    { intros t i Ht. pose proof (cwlin_bound n (phi t) B ltac:(rewrite (F t); reflexivity) (fun i => HB t i Ht) i) as Q.
      revert Q. rewrite (F t), cwF_eq. cbn [cwlin]. unfold B1.
      pose proof (Rabs_pos ax). pose proof (Rabs_pos ay). pose proof (Rabs_pos az).
      destruct i as [|[|[|[|[|[|i]]]]]]; cbn [nth]; intros Q; try lra;
        try (eapply Rle_trans; [apply Rabs_triang|]; lra). }
    assert (M0 : 0 <= M).
    { unfold M. apply Rmult_le_pos; [pose proof (cwL_pos n); lra|]. eapply Rle_trans; [apply Rabs_pos|apply (HF 0 0%nat)]; lra. }
    assert (Loc : forall h t, 0 <= h -> 0 <= t -> t + h <= T ->
       within (M * h^2) (vaxpy (phi t) h (cwF n ax ay az (phi t))) (phi (t + h))).
    { intros h t Hh Ht Hth.
      assert (Lt : forall u, length (phi u) = 6%nat) by (intros u; rewrite (F u); reflexivity).
      split; [rewrite len_vaxpy; rewrite ?cwF_len; rewrite ?Lt; auto|]. intros i.
      rewrite nth_vaxpy by (rewrite cwF_len; rewrite ?Lt; auto).
      assert (SB : forall u j, t <= u <= t + h -> Rabs (nth j (cwlin n (cwF n ax ay az (phi u))) 0) <= M).
      { intros u j Hu. apply cwlin_bound; [apply cwF_len, Lt|]. intros k. apply HF. lra. }
      destruct i as [|[|[|[|[|[|i]]]]]].
      - rewrite (F t), cwF_eq. cbn [nth]. fold (g 0%nat (t + h)).
        apply (taylor1 (g 0%nat) (g 3%nat) (fun u => 3 * n^2 * g 0%nat u + 2 * n * g 4%nat u + ax)); auto.
        intros u Hu. specialize (SB u 0%nat Hu). rewrite (F u), cwF_eq in SB. exact SB.
      - rewrite (F t), cwF_eq. cbn [nth]. fold (g 1%nat (t + h)).
        apply (taylor1 (g 1%nat) (g 4%nat) (fun u => - 2 * n * g 3%nat u + ay)); auto.
        intros u Hu. specialize (SB u 1%nat Hu). rewrite (F u), cwF_eq in SB. exact SB.
      - rewrite (F t), cwF_eq. cbn [nth]. fold (g 2%nat (t + h)).
        apply (taylor1 (g 2%nat) (g 5%nat) (fun u => - n^2 * g 2%nat u + az)); auto.
        intros u Hu. specialize (SB u 2%nat Hu). rewrite (F u), cwF_eq in SB. exact SB.
      - rewrite (F t), cwF_eq. cbn [nth]. fold (g 3%nat (t + h)).
        apply (taylor1 (g 3%nat) (fun u => 3 * n^2 * g 0%nat u + 2 * n * g 4%nat u + ax)
          (fun u => 3 * n^2 * g 3%nat u + 2 * n * (- 2 * n * g 3%nat u + ay))); auto.
        + intros; apply (lin_derive (g 0%nat) (g 4%nat)); [exact (D0 _)|exact (D4 _)].
        + intros u Hu. specialize (SB u 3%nat Hu). rewrite (F u), cwF_eq in SB. exact SB.
      - rewrite (F t), cwF_eq. cbn [nth]. fold (g 4%nat (t + h)).
        apply (taylor1 (g 4%nat) (fun u => - 2 * n * g 3%nat u + ay)
          (fun u => - 2 * n * (3 * n^2 * g 0%nat u + 2 * n * g 4%nat u + ax))); auto.
        + intros; apply (lin_derive1 (g 3%nat)); exact (D3 _).
        + intros u Hu. specialize (SB u 4%nat Hu). rewrite (F u), cwF_eq in SB. exact SB.
      - rewrite (F t), cwF_eq. cbn [nth]. fold (g 5%nat (t + h)).
        apply (taylor1 (g 5%nat) (fun u => - n^2 * g 2%nat u + az) (fun u => - n^2 * g 5%nat u)); auto.
        + intros; apply (lin_derive1 (g 2%nat)); exact (D2 _).
        + intros u Hu. specialize (SB u 5%nat Hu). rewrite (F u), cwF_eq in SB. exact SB.
      - rewrite !nth_overflow by (rewrite ?cwF_len; rewrite ?Lt; auto; lia).
        replace (0 + h * 0 - 0) with 0 by ring. rewrite Rabs_R0. apply Rmult_le_pos; [exact M0|apply pow2_ge_0]. }
    exists (M * T * exp (cwL n * T)). intros k Hk.
    destruct (euler_run w m n samples _ _ _ _ _ _ e0 fx fy fz (T / INR k) Hm Sa E Hx Hy Hz k s L) as (e' & R1 & R2).
    exists e', (euler_iter (cwF n ax ay az) (T / INR k) k s). split; [exact R1|]. split; [exact R2|].
    change (within (M * T * exp (cwL n * T) * (T / INR k)) (euler_iter (cwF n ax ay az) (T / INR k) k s) (phi T)).
    rewrite <- P0.
    apply (converge_bound 6 (cwF n ax ay az) (cwL n) M T); auto.
    - pose proof (cwL_pos n); lra.
    - intros; apply cwF_len; auto.
    - intros; apply cwF_lip; auto.
  Qed.
End Y.

(** ** A solver that makes no error on these equations: it evaluates the closed form. *)
Definition cw_world (n : R) : world xr :=
  {| w_solve_ivp := fun f h s te =>
       match f (Fin 0) (A1 (map Fin [0; 0; 0; 0; 0; 0])), s with
       | Ok (A1 [_; _; _; ax; ay; az]), A1 l =>
           Ok {| sol_t := [h];
                 sol_y := [map Fin (cw_forced n (real_of ax) (real_of ay) (real_of az) (map real_of l) (real_of h))];
                 sol_success := true |}
       | _, _ => Err ValueError
       end;
     w_odeint := fun _ _ _ => Err ValueError;
     w_jax := false |}.

Section Z.
  Variable r32 : R -> xr.
  Local Hint Extern 0 (Num xr) => exact (XR r32) : typeclass_instances.
  Lemma real_of_Fin l : map real_of (map Fin l) = l.
  Proof. induction l; cbn; congruence. Qed.
  Lemma csd_len6 m n samples method d : m <> 0 -> cwh_dyn (Fin m) (Fin n) samples method = Ok d ->
    forall t l u ds, compute_state_dot d t (A1 (map Fin l)) (A1 (map Fin u)) = Ok (A1 (map Fin ds)) -> length l = 6%nat.
  Proof.
    intros Hm. unfold cwh_dyn, generate_cwh_matrices, pydiv, linear_dyn. cbn.
    rewrite (Req_bool_false m (0/1)) by lra. cbn. rewrite (Req_bool_false m 0) by lra.
    intros E; injection E as <-. intros t l u ds. unfold compute_state_dot. cbn [d_raw].
    unfold affine_raw. destruct l as [|? [|? [|? [|? [|? [|? [|? l]]]]]]]; try reflexivity; intros Q; exfalso; revert Q;
      cbn; discriminate.
  Qed.
  Lemma cw_world_exact m n samples method d : m <> 0 -> n <> 0 ->
    cwh_dyn (Fin m) (Fin n) samples method = Ok d ->
    forall gx gy gz, exact_on (cw_world n) (fun t x => compute_state_dot d t x (A1 (map Fin [gx; gy; gz]))).
  Proof.
    intros Hm Hn Ed gx gy gz h te phi I _.
    assert (L0 : length (phi 0) = 6%nat).
    { destruct (I 0) as (ds & _ & _ & E & _). revert E. generalize (phi 0) as l. clear - Hm Ed. intros l E.
      pose proof (csd_len6 m n samples method d Hm Ed (Fin 0) l [gx; gy; gz] ds E). auto. }
    assert (S : solves d (A1 (map Fin [gx; gy; gz])) phi).
    { intros t. destruct (I t) as (ds & Q). exists ds. exact Q. }
    cbn [w_solve_ivp cw_world]. cbn [map].
    rewrite (cwh_csd r32 m n _ _ _ Hm Ed). rewrite real_of_Fin. cbn [real_of].
    eexists _, []. split; [reflexivity|]. cbn [sol_y app]. do 2 f_equal.
    rewrite (forced_unique r32 m n samples method d phi gx gy gz Hm Hn Ed L0 S h).
    f_equal; ring.
  Qed.
End Z.
