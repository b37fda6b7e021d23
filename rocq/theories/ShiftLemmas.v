(** Proofs about displaced vehicles. *)
From Coq Require Import String List Bool Arith ZArith Reals Lra Lia.
From Verif Require Import XTac PyBase Num Arr ArrLemmas BaseModel BaseLemmas XReal SpecRk SpecShift Cwh Rot2d Utils SixDof Dubins Integ.
From Flocq Require Import Core.Core.
Import List ListNotations.
Local Open Scope R_scope.
Local Hint Extern 0 (Num xr) => exact (XR Fin) : typeclass_instances.

Lemma F2len {A B} {P : A -> B -> Prop} {l m} : Forall2 P l m -> length l = length m.
Proof. induction 1; simpl; congruence. Qed.
Lemma xadd_swap x y c : xadd (xadd x (Fin c)) y = xadd (xadd x y) (Fin c).
Proof. destruct x, y; simpl; try reflexivity. f_equal. ring. Qed.
Lemma xadd_zero x : xadd x (Fin 0) = x.
Proof. destruct x; simpl; try reflexivity. f_equal. ring. Qed.

Lemma displace_len cs l : length l = length cs -> length (displace cs l) = length cs.
Proof. intros H. unfold displace. rewrite zipw_length; congruence. Qed.
Lemma displace_add cs l k : length l = length cs -> length k = length cs ->
  zipw xadd (displace cs l) k = displace cs (zipw xadd l k).
Proof.
  revert l k. induction cs as [|c cs IH]; intros [|x l] [|y k] H1 H2; simpl in *; try discriminate; try reflexivity.
  unfold displace in *. simpl. rewrite xadd_swap, IH by lia. reflexivity.
Qed.

(** [a] is [v] at the displaced elements. *)
Definition free_at (cs : list R) (v : xr) (a : arr xr) : Prop :=
  match a with
  | A0 x => x = v
  | A1 l => Forall2 (fun x c => c = 0 \/ x = v) l cs
  end.
Definition sized (n : nat) (a : arr xr) : Prop :=
  match a with A0 _ => True | A1 l => length l = n end.
Lemma free_sized cs v a : free_at cs v a -> sized (length cs) a.
Proof. destruct a; simpl; auto. apply F2len. Qed.

(** An elementwise operation that does not see the displacement. *)
Lemma bmap2_blind {C} (f : xr -> xr -> C) cs v a l : length l = length cs -> free_at cs v a ->
  (forall x c, f (xadd x (Fin c)) v = f x v) ->
  bmap2 f (A1 (displace cs l)) a = bmap2 f (A1 l) a.
Proof.
  intros L Fa Hf. destruct a as [y|m]; simpl in *.
  - subst y. f_equal. f_equal. revert l L. induction cs as [|c cs IH]; intros [|x l] L; simpl in *; try discriminate; try reflexivity.
    unfold displace in *. simpl. rewrite Hf, IH by lia. reflexivity.
  - pose proof (F2len Fa) as Lm. rewrite displace_len, L, Lm, Nat.eqb_refl by assumption.
    f_equal. f_equal. clear Lm. revert l L. induction Fa as [|y c m cs Hy Fa IH]; intros [|x l] L; simpl in *; try discriminate; try reflexivity.
    unfold displace in *. simpl. rewrite IH by lia. f_equal. destruct Hy as [->| ->]; [now rewrite xadd_zero|apply Hf].
Qed.
(** An elementwise operation that commutes with the displacement. *)
Lemma bmap2_commute (f : xr -> xr -> xr) cs v a l : length l = length cs -> free_at cs v a ->
  (forall x c, f (xadd x (Fin c)) v = xadd (f x v) (Fin c)) ->
  exists k, length k = length cs /\ bmap2 f (A1 l) a = Ok (A1 k) /\ bmap2 f (A1 (displace cs l)) a = Ok (A1 (displace cs k)).
Proof.
  intros L Fa Hf. destruct a as [y|m]; simpl in *.
  - subst y. exists (map (fun x => f x v) l). rewrite map_length. split; [exact L|]. split; [reflexivity|].
    f_equal. f_equal. revert l L. induction cs as [|c cs IH]; intros [|x l] L; simpl in *; try discriminate; try reflexivity.
    unfold displace in *. simpl. rewrite Hf, IH by lia. reflexivity.
  - pose proof (F2len Fa) as Lm. rewrite displace_len, L, Lm, Nat.eqb_refl by assumption.
    exists (zipw f l m). split; [rewrite zipw_length; congruence|]. split; [reflexivity|].
    f_equal. f_equal. clear Lm. revert l L. induction Fa as [|y c m cs Hy Fa IH]; intros [|x l] L; simpl in *; try discriminate; try reflexivity.
    unfold displace in *. simpl. rewrite IH by lia. f_equal. destruct Hy as [->| ->]; [now rewrite !xadd_zero|apply Hf].
Qed.
Lemma bmap2_sized {A B C} (f : A -> B -> C) l (b : arr B) : (match b with A0 _ => True | A1 m => length m = length l end) ->
  exists k, length k = length l /\ bmap2 f (A1 l) b = Ok (A1 k).
Proof.
  destruct b as [y|m]; simpl; intros H.
  - eexists. split; [|reflexivity]. apply map_length.
  - rewrite H, Nat.eqb_refl. eexists. split; [|reflexivity]. apply zipw_length. congruence.
Qed.
Lemma np_clip_sized l a b : sized (length l) a -> sized (length l) b ->
  exists k, length k = length l /\ np_clip (A1 l) a b = Ok (A1 k).
Proof.
  intros Ha Hb. unfold np_clip. destruct (bmap2_sized np_max_clip l a Ha) as (k & Lk & ->). cbn [bind].
  rewrite <- Lk in Hb. destruct (bmap2_sized np_min_clip k b Hb) as (k2 & Lk2 & ->). exists k2. split; [lia|reflexivity].
Qed.

Lemma np_clip_commute cs lo hi l : length l = length cs -> free_at cs NInf lo -> free_at cs PInf hi ->
  exists k, length k = length cs /\ np_clip (A1 l) lo hi = Ok (A1 k) /\ np_clip (A1 (displace cs l)) lo hi = Ok (A1 (displace cs k)).
Proof.
  intros L Fl Fh. unfold np_clip.
  destruct (bmap2_commute np_max_clip cs NInf lo l L Fl) as (k & Lk & -> & ->).
  { intros x c. unfold np_max_clip. destruct x; reflexivity. }
  cbn [bind]. apply (bmap2_commute np_min_clip cs PInf hi k Lk Fh).
  intros x c. unfold np_min_clip. destruct x; reflexivity.
Qed.

Record shiftable (cs : list R) (d : dyn xr) : Prop := {
  sb_min : free_at cs NInf (d_min d);
  sb_max : free_at cs PInf (d_max d);
  sb_wrap : match d_wrap d with None => True | Some c => exists l, c = A1 l /\ free_at cs NaN c end;
  sb_sdmin : sized (length cs) (d_sdmin d);
  sb_sdmax : sized (length cs) (d_sdmax d);
  sb_raw : forall u, uniform_field cs (fun t s => d_raw d t s u)
}.

Lemma np_where_eq {A} (c : list bool) (x y : list A) : length x = length c -> length y = length c ->
  np_where (A1 c) (A1 x) (A1 y) = Ok (A1 (zipw (fun (b : bool) (p : A * A) => if b then fst p else snd p) c (zipw pair x y))).
Proof.
  intros Hx Hy. unfold np_where. cbn [bmap2]. rewrite Hx, Hy, Nat.eqb_refl. cbn [bind].
  rewrite (zipw_length pair), Hx, Nat.eqb_refl by congruence. reflexivity.
Qed.
Lemma np_where_sized {A} (c : list bool) (x y : list A) : length x = length c -> length y = length c ->
  exists k, length k = length c /\ np_where (A1 c) (A1 x) (A1 y) = Ok (A1 k).
Proof.
  intros Hx Hy. unfold np_where. destruct (bmap2_sized pair x (A1 y)) as (k & Lk & ->); [congruence|]. cbn [bind].
  destruct (bmap2_sized (fun (b : bool) (p : A * A) => if b then fst p else snd p) c (A1 k)) as (k2 & L2 & ->); [congruence|]. eauto.
Qed.
Lemma limits_sized d n s sd : length s = n -> length sd = n -> sized n (d_min d) -> sized n (d_max d) ->
  exists k, length k = n /\ clip_state_dot_by_state_limits d (A1 s) (A1 sd) = Ok (A1 k).
Proof.
  intros L1 L2 H1 H2. unfold clip_state_dot_by_state_limits. subst n.
  destruct (bmap2_sized nleb s (d_min d) H1) as (k1 & K1 & ->).
  destruct (bmap2_sized (fun x m => nleb m x) s (d_max d) H2) as (k2 & K2 & ->). cbn [bind].
  destruct (np_clip_sized sd (A0 n0) (A0 npinf) I I) as (k3 & K3 & ->).
  destruct (np_clip_sized sd (A0 nninf) (A0 n0) I I) as (k4 & K4 & ->). cbn [bind].
  destruct (np_where_sized k1 k3 sd) as (k5 & K5 & ->); [congruence..|]. cbn [bind].
  destruct (np_where_sized k2 k4 k5) as (k6 & K6 & ->); [congruence..|].
  exists k6. split; [congruence|reflexivity].
Qed.

Lemma sdot_uniform cs d u : shiftable cs d -> uniform_field cs (fun t s => compute_state_dot d t s u).
Proof.
  intros Sh t l L. destruct (sb_raw _ _ Sh u t l L) as (Rq & Rl). unfold compute_state_dot. cbn beta in *. rewrite Rq.
  destruct (d_raw d t (A1 l) u) as [x|ex]; cbn [bind].
  2: { split; [reflexivity|discriminate]. }
  destruct (Rl x eq_refl) as (k & -> & Lk). unfold clip_state_dot_direct.
  destruct (np_clip_sized k (d_sdmin d) (d_sdmax d)) as (k2 & Lk2 & ->);
    [rewrite Lk; apply (sb_sdmin _ _ Sh)|rewrite Lk; apply (sb_sdmax _ _ Sh)|]. cbn [bind].
  split.
  - unfold clip_state_dot_by_state_limits.
    rewrite (bmap2_blind nleb cs NInf (d_min d) l L (sb_min _ _ Sh)) by (intros [] ?; reflexivity).
    rewrite (bmap2_blind (fun x m => nleb m x) cs PInf (d_max d) l L (sb_max _ _ Sh)) by (intros [] ?; reflexivity).
    reflexivity.
  - intros x E. destruct (limits_sized d (length cs) l k2 L) as (k3 & L3 & E3); [lia|apply (free_sized _ _ _ (sb_min _ _ Sh))|apply (free_sized _ _ _ (sb_max _ _ Sh))|].
    rewrite E3 in E. injection E as <-. eauto.
Qed.

Lemma wrap_commute cs d l : shiftable cs d -> length l = length cs ->
  exists k, length k = length cs /\ wrap_angles d (A1 l) = Ok (A1 k) /\ wrap_angles d (A1 (displace cs l)) = Ok (A1 (displace cs k)).
Proof.
  intros Sh L. unfold wrap_angles. pose proof (sb_wrap _ _ Sh) as Hw. destruct (d_wrap d) as [c|]; [|eauto].
  destruct Hw as (m & -> & Fm). cbn [free_at] in Fm. pose proof (F2len Fm) as Lm.
  pose proof (displace_len cs l L) as Ld.
  cbn [bmap2 amap]. rewrite Ld, L, Lm, Nat.eqb_refl. cbn [bind].
  rewrite !np_where_eq; rewrite ?map_length, ?zipw_length, ?Ld; try congruence.
  eexists. split; [|split; [reflexivity|]].
  { rewrite zipw_length, map_length; [congruence|]. rewrite map_length, zipw_length; rewrite ?zipw_length; congruence. }
  f_equal. f_equal. clear Lm Sh Ld. revert l L. induction Fm as [|y c m cs' Hy Fm IH]; intros [|x l] L; simpl in *; try discriminate; try reflexivity.
  unfold displace in *. simpl. f_equal.
  - destruct Hy as [->| ->]; [now rewrite !xadd_zero|reflexivity].
  - apply IH. lia.
Qed.

(** One step. *)
Definition displaced_step (cs : list R) (r r' : traj xr * res (arr xr * arr xr)) : Prop :=
  match snd r, snd r' with
  | Ok (s, sd), Ok (s', sd') => exists l, s = A1 l /\ length l = length cs /\ s' = A1 (displace cs l) /\ sd' = sd
  | Err x, Err y => x = y
  | _, _ => False
  end.
Lemma last_row_map cs rows : rows <> [] -> Forall (fun r => length r = length cs) rows ->
  exists r, length r = length cs /\ last_row rows = Ok (A1 r) /\ last_row (map (displace cs) rows) = Ok (A1 (displace cs r)).
Proof.
  intros Hn Hf. unfold last_row. rewrite <- map_rev. pose proof (Forall_rev Hf) as Hr.
  destruct (rev rows) as [|r k] eqn:E.
  - exfalso. apply Hn. rewrite <- (rev_involutive rows), E. reflexivity.
  - exists r. split; [now inversion Hr|]. split; reflexivity.
Qed.
Lemma dyn__step_displaced cs w d tr tr' h l u : shiftable cs d -> length l = length cs ->
  (d_method d = "Euler"%string \/ blind_solver cs w) ->
  displaced_step cs (dyn__step w d tr h (A1 l) u) (dyn__step w d tr' h (A1 (displace cs l)) u).
Proof.
  intros Sh L Hw. unfold dyn__step.
  pose proof (sdot_uniform cs d u Sh) as U. pose proof (sb_raw _ _ Sh u) as Ur.
  destruct (String.eqb (d_method d) "RK45") eqn:M1.
  { apply String.eqb_eq in M1. destruct Hw as [Hw|Hw]; [rewrite M1 in Hw; discriminate|].
    destruct (Hw (fun t x => compute_state_dot d t x u) l U L) as (Hs & _).
    specialize (Hs h (if (0 <? d_samples d)%Z then Some (t_eval_points h (Z.to_nat (d_samples d))) else None)).
    destruct (w_solve_ivp w _ h (A1 l) _) as [s|x]; destruct (w_solve_ivp w _ h (A1 (displace cs l)) _) as [s'|y]; try contradiction.
    2: { exact Hs. }
    destruct Hs as (Er & Fr). rewrite Er. destruct (sol_y s) as [|r0 rs] eqn:Es; [reflexivity|].
    cbn [map]. change (displace cs r0 :: map (displace cs) rs) with (map (displace cs) (r0 :: rs)).
    destruct (last_row_map cs (r0 :: rs)) as (r & Lr & E1 & E2); [discriminate|exact Fr|].
    unfold displaced_step. cbn [snd]. rewrite E1, E2. cbn [bind].
    destruct (U h r Lr) as (Uq & _). cbn beta in Uq. rewrite Uq.
    destruct (compute_state_dot d h (A1 r) u); cbn [bind]; [eauto|reflexivity]. }
  destruct (String.eqb (d_method d) "RK45_JAX") eqn:M2.
  { apply String.eqb_eq in M2. destruct Hw as [Hw|Hw]; [rewrite M2 in Hw; discriminate|].
    unfold displaced_step. cbn [snd]. destruct (negb (d_use_jax d)); [reflexivity|].
    destruct (py_assert (d_samples d <=? 0)%Z); cbn [bind]; [|reflexivity].
    destruct (Hw (fun t x => d_raw d t x u) l Ur L) as (_ & Hs). specialize (Hs (jax_times h)). unfold compute_state_dot_jax.
    cbn beta in Hs.
    destruct (w_odeint w _ (A1 l) _) as [s|x]; destruct (w_odeint w _ (A1 (displace cs l)) _) as [s'|y]; try contradiction; cbn [bind].
    2: { exact Hs. }
    destruct Hs as (-> & Fr). destruct s as [|r0 rs]; [reflexivity|].
    destruct (last_row_map cs (r0 :: rs)) as (r & Lr & E1 & E2); [discriminate|exact Fr|].
    rewrite E1, E2. cbn [bind].
    destruct (U h r Lr) as (Uq & _). cbn beta in Uq. rewrite Uq.
    destruct (compute_state_dot d h (A1 r) u); cbn [bind]; [eauto|reflexivity]. }
  destruct (String.eqb (d_method d) "Euler") eqn:M3; [|reflexivity].
  unfold displaced_step. cbn [snd]. destruct (py_assert (d_samples d <=? 0)%Z); cbn [bind]; [|reflexivity].
  destruct (U n0 l L) as (Uq & Ul). cbn beta in Uq, Ul. rewrite Uq.
  destruct (compute_state_dot d n0 (A1 l) u) as [x|]; cbn [bind]; [|reflexivity].
  destruct (Ul x eq_refl) as (k & -> & Lk). cbn [amap bmap2]. rewrite !map_length, displace_len, L, Lk, Nat.eqb_refl by assumption.
  cbn [bind]. exists (zipw xadd l (map (nmul h) k)). split; [reflexivity|]. split; [rewrite zipw_length; rewrite ?map_length; congruence|].
  split; [|reflexivity]. f_equal. apply displace_add; rewrite ?map_length; congruence.
Qed.
Lemma dyn_step_displaced cs w d tr tr' h l u : shiftable cs d -> length l = length cs ->
  (d_method d = "Euler"%string \/ blind_solver cs w) ->
  displaced_step cs (dyn_step w d tr h (A1 l) u) (dyn_step w d tr' h (A1 (displace cs l)) u).
Proof.
  intros Sh L Hw. pose proof (dyn__step_displaced cs w d tr tr' h l u Sh L Hw) as H. unfold dyn_step.
  destruct (dyn__step w d tr h (A1 l) u) as [t1 r1]. destruct (dyn__step w d tr' h (A1 (displace cs l)) u) as [t2 r2].
  unfold displaced_step in *. cbn [snd] in *.
  destruct r1 as [[s sd]|x], r2 as [[s' sd']|y]; try contradiction; cbn [bind]; [|exact H].
  destruct H as (k & -> & Lk & -> & ->).
  destruct (np_clip_commute cs (d_min d) (d_max d) k Lk (sb_min _ _ Sh) (sb_max _ _ Sh)) as (k2 & L2 & -> & ->). cbn [bind].
  destruct (wrap_commute cs d k2 Sh L2) as (k3 & L3 & -> & ->). cbn [bind]. eauto.
Qed.

(** Two entities that differ by a displacement. *)
Definition displaced (cs : list R) (e e' : entity xr) : Prop :=
  e_dyn e' = e_dyn e /\ e_default e' = e_default e /\ e_cmin e' = e_cmin e /\ e_cmax e' = e_cmax e /\
  e_cmap e' = e_cmap e /\
  exists l, e_state e = A1 l /\ length l = length cs /\ e_state e' = A1 (displace cs l) /\ e_sdot e' = e_sdot e.

Lemma entity_step_displaced cs w e e' h a : shiftable cs (e_dyn e) ->
  (d_method (e_dyn e) = "Euler"%string \/ blind_solver cs w) -> displaced cs e e' ->
  o_res (entity_step w e' h a) = o_res (entity_step w e h a) /\
  displaced cs (o_entity (entity_step w e h a)) (o_entity (entity_step w e' h a)).
Proof.
  intros Sh Hw (Ed & Ef & El & Eh & Em & l & S1 & L & S2 & Esd).
  assert (D0 : displaced cs e e') by (repeat (apply conj; [assumption|]); eauto).
  assert (Dec : decode_action w e' a = decode_action w e a) by (unfold decode_action; rewrite Ef, Em; reflexivity).
  unfold entity_step. rewrite Dec, El, Eh, Ed, S1, S2.
  destruct (decode_action w e a) as [c|]; [|split; [reflexivity|exact D0]].
  destruct (out_of_bounds c (e_cmin e) (e_cmax e)); [|split; [reflexivity|exact D0]].
  destruct (np_clip c (e_cmin e) (e_cmax e)) as [c'|]; [|split; [reflexivity|exact D0]].
  pose proof (dyn_step_displaced cs w (e_dyn e) (e_traj e) (e_traj e') h l c' Sh L Hw) as H.
  destruct (dyn_step w (e_dyn e) (e_traj e) h (A1 l) c') as [t1 r1].
  destruct (dyn_step w (e_dyn e) (e_traj e') h (A1 (displace cs l)) c') as [t2 r2].
  unfold displaced_step in H. cbn [snd] in H.
  destruct r1 as [[s sd]|x], r2 as [[s' sd']|y]; try contradiction.
  - destruct H as (k & -> & Lk & -> & ->). split; [reflexivity|].
    cbn [o_entity]. unfold displaced, with_step. cbn. repeat (apply conj; [assumption|]). eauto 6.
  - subst y. split; [reflexivity|]. cbn [o_entity]. unfold displaced, with_traj. cbn. repeat (apply conj; [assumption|]). eauto 6.
Qed.
Lemma run_displaced cs w acts : forall e e', shiftable cs (e_dyn e) ->
  (d_method (e_dyn e) = "Euler"%string \/ blind_solver cs w) -> displaced cs e e' ->
  displaced_result cs (run w e acts) (run w e' acts).
Proof.
  induction acts as [|[h a] acts IH]; intros e e' Sh Hw D.
  - cbn [run]. destruct D as (_ & _ & _ & _ & _ & l & H). exists l. exact H.
  - cbn [run]. destruct (entity_step_displaced cs w e e' h a Sh Hw D) as (-> & D').
    destruct (o_res (entity_step w e h a)); cbn [bind]; [|reflexivity].
    destruct (entity_step_config w e h a) as (Cd & _).
    apply IH; [| |exact D']; rewrite Cd; assumption.
Qed.

(** Explicit Runge-Kutta methods are blind. *)
Section Blind.
  Variable cs : list R.
  Variable f : xr -> arr xr -> res (arr xr).
  Hypothesis U : uniform_field cs f.
  Definition slopes_ok (ks : list (arr xr)) : Prop := Forall (fun k => exists m, k = A1 m /\ length m = length cs) ks.

  Lemma erk_sum_displaced h ws : forall ks l, slopes_ok ks -> length l = length cs ->
    exists k, length k = length cs /\ erk_sum h (A1 l) ws ks = Ok (A1 k) /\
      erk_sum h (A1 (displace cs l)) ws ks = Ok (A1 (displace cs k)).
  Proof.
    induction ws as [|c ws IH]; intros ks l Hk L.
    - exists l. split; [exact L|split; reflexivity].
    - destruct ks as [|k ks]; [exists l; split; [exact L|split; reflexivity]|].
      inversion Hk as [|? ? (m & -> & Lm) Hks]; subst. cbn [erk_sum amap bmap2].
      rewrite map_length, displace_len, L, Lm, Nat.eqb_refl by assumption. cbn [bind].
      rewrite displace_add; rewrite ?map_length; try congruence.
      apply IH; [assumption|]. rewrite zipw_length; rewrite ?map_length; congruence.
  Qed.
  Lemma erk_slopes_displaced h l st : length l = length cs -> forall ks, slopes_ok ks ->
    erk_slopes f h (A1 (displace cs l)) st ks = erk_slopes f h (A1 l) st ks /\
    (forall r, erk_slopes f h (A1 l) st ks = Ok r -> slopes_ok r).
  Proof.
    intros L. induction st as [|[c a] st IH]; intros ks Hk.
    - split; [reflexivity|]. intros r E. injection E as <-. exact Hk.
    - cbn [erk_slopes]. destruct (erk_sum_displaced h a ks l Hk L) as (q & Lq & -> & ->). cbn [bind].
      destruct (U (Fin (c * h)) q Lq) as (-> & Ul).
      destruct (f (Fin (c * h)) (A1 q)) as [k|]; cbn [bind]; [|split; [reflexivity|discriminate]].
      apply IH. apply Forall_app. split; [exact Hk|]. constructor; [|constructor]. apply Ul. reflexivity.
  Qed.
  Lemma erk_step_displaced h l tb : length l = length cs ->
    match erk_step f h (A1 l) tb, erk_step f h (A1 (displace cs l)) tb with
    | Ok r, Ok r' => r' = displace cs r /\ length r = length cs
    | Err x, Err y => x = y
    | _, _ => False
    end.
  Proof.
    intros L. unfold erk_step. destruct (erk_slopes_displaced h l (tb_stages tb) L [] (Forall_nil _)) as (-> & Hr).
    destruct (erk_slopes f h (A1 l) (tb_stages tb) []) as [ks|]; cbn [bind]; [|reflexivity].
    destruct (erk_sum_displaced h (tb_weights tb) ks l (Hr ks eq_refl) L) as (q & Lq & -> & ->). cbn [bind].
    split; [reflexivity|exact Lq].
  Qed.
  Lemma erk_rows_displaced {A} (g : A -> R) l tb : length l = length cs -> forall ts,
    match mapM (fun t => erk_step f (g t) (A1 l) tb) ts, mapM (fun t => erk_step f (g t) (A1 (displace cs l)) tb) ts with
    | Ok r, Ok r' => r' = map (displace cs) r /\ Forall (fun r => length r = length cs) r
    | Err x, Err y => x = y
    | _, _ => False
    end.
  Proof.
    intros L. induction ts as [|t ts IH]; cbn [mapM]; [split; [reflexivity|constructor]|].
    pose proof (erk_step_displaced (g t) l tb L) as H.
    destruct (erk_step f (g t) (A1 l) tb), (erk_step f (g t) (A1 (displace cs l)) tb); try contradiction; cbn [bind]; [|exact H].
    destruct H as (-> & Lr).
    destruct (mapM _ ts), (mapM _ ts); try contradiction; cbn [bind]; [|exact IH].
    destruct IH as (-> & Fr). split; [reflexivity|constructor; assumption].
  Qed.
End Blind.
Lemma erk_blind cs tb : blind_solver cs (erk_world tb).
Proof.
  intros f l U L. split.
  - intros h te. cbn [erk_world w_solve_ivp]. set (ts := match te with None => [h] | Some ts => ts end).
    pose proof (erk_rows_displaced cs f U real_of l tb L ts) as H.
    destruct (mapM _ ts), (mapM _ ts); try contradiction; cbn [bind]; exact H.
  - intros ts. cbn [erk_world w_odeint].
    exact (erk_rows_displaced cs f U (fun t => real_of t - real_of (hd (Fin 0) ts)) l tb L ts).
Qed.

(** Linear dynamics: the matrix must not see the displacement. *)
Definition blind_row (cs : list R) (r : list xr) : Prop := Forall2 (fun x c => c = 0 \/ x = Fin 0) r cs.
Lemma xmul_zero_shift x c : xmul (Fin 0) (xadd x (Fin c)) = xmul (Fin 0) x.
Proof. destruct x; simpl; try reflexivity. f_equal. ring. Qed.
Lemma dot_blind cs r l : blind_row cs r -> length l = length cs -> dot r (displace cs l) = dot r l.
Proof.
  intros Hr. unfold dot. generalize (n0 (N := XR Fin)). revert l.
  induction Hr as [|x c r cs Hx Hr IH]; intros [|y l] acc L; simpl in *; try discriminate; try reflexivity.
  unfold displace in *. simpl. rewrite IH by lia. f_equal. f_equal. destruct Hx as [->| ->]; [now rewrite xadd_zero|apply xmul_zero_shift].
Qed.
Lemma matvec_blind cs M l : Forall (blind_row cs) M -> length l = length cs -> matvec M (A1 (displace cs l)) = matvec M (A1 l).
Proof.
  intros HM L. cbn [matvec]. rewrite displace_len, L by assumption. 
  destruct (forallb _ M); [|reflexivity]. f_equal. f_equal. apply map_ext_in. intros r Hr.
  apply dot_blind; [|exact L]. exact (proj1 (Forall_forall _ _) HM r Hr).
Qed.
Lemma matvec_len (M : list (list xr)) v (x : arr xr) : matvec M v = Ok x -> exists k, x = A1 k /\ length k = length M.
Proof.
  destruct v; cbn [matvec]; [discriminate|]. destruct (forallb _ M); [|discriminate]. intros E. injection E as <-.
  eexists. split; [reflexivity|]. apply map_length.
Qed.
Lemma linear_uniform cs A B u : Forall (blind_row cs) A -> length A = length cs -> length B = length cs ->
  uniform_field cs (fun t s => linear_raw A B t s u).
Proof.
  intros HA LA LB t l L. unfold linear_raw, affine_raw. rewrite (matvec_blind cs A l HA L). split; [reflexivity|].
  intros x. destruct (matvec A (A1 l)) as [fx|] eqn:E1; cbn [bind]; [|discriminate].
  destruct (matvec B u) as [gu|] eqn:E2; cbn [bind]; [|discriminate].
  destruct (matvec_len _ _ _ E1) as (k1 & -> & L1). destruct (matvec_len _ _ _ E2) as (k2 & -> & L2).
  cbn [bmap2]. rewrite L1, L2, LA, LB, Nat.eqb_refl. intros E. injection E as <-. eexists. split; [reflexivity|].
  rewrite zipw_length; congruence.
Qed.
Lemma affine_uniform cs f g u : 
  (forall l, length l = length cs -> f (A1 (displace cs l)) = f (A1 l) /\ (forall x, f (A1 l) = Ok x -> exists k, x = A1 k /\ length k = length cs)) ->
  (forall l, length l = length cs -> g (A1 (displace cs l)) = g (A1 l) /\ (forall M, g (A1 l) = Ok M -> length M = length cs)) ->
  uniform_field cs (fun t s => affine_raw f g t s u).
Proof.
  intros Hf Hg t l L. unfold affine_raw. destruct (Hf l L) as (-> & Lf). destruct (Hg l L) as (-> & Lg). split; [reflexivity|].
  intros x. destruct (f (A1 l)) as [fx|]; cbn [bind]; [|discriminate].
  destruct (g (A1 l)) as [gx|]; cbn [bind]; [|discriminate].
  destruct (matvec gx u) as [gu|] eqn:E2; cbn [bind]; [|discriminate].
  destruct (Lf _ eq_refl) as (k1 & -> & L1). destruct (matvec_len _ _ _ E2) as (k2 & -> & L2). rewrite (Lg _ eq_refl) in L2.
  cbn [bmap2]. rewrite L1, L2, Nat.eqb_refl. intros E. injection E as <-. eexists. split; [reflexivity|].
  rewrite zipw_length; congruence.
Qed.

(** The vehicles. *)
Ltac blind_entry := first [left; reflexivity | right; reflexivity | right; simpl; f_equal; field ].
Ltac blind_list := repeat (constructor; [blind_entry|]); constructor.
Ltac lens l := repeat (destruct l as [|? l]; try discriminate).

Lemma dubins2d_shiftable vmin vmax k m a b : shiftable [a; b; 0; 0] (dubins2d_dyn vmin vmax k m).
Proof.
  constructor; cbn.
  - blind_list.
  - blind_list.
  - eexists. split; [reflexivity|]. blind_list.
  - exact I.
  - exact I.
  - intros u. apply affine_uniform.
    + intros l L. lens l. split; [cbn; now rewrite !xadd_zero|]. intros ?x E. injection E as <-. eexists. split; reflexivity.
    + intros l L. split; [reflexivity|]. intros M E. injection E as <-. reflexivity.
Qed.
Lemma dubins3d_shiftable g v0 v1 g0 g1 r0 r1 k m a b c : shiftable [a; b; c; 0; 0; 0; 0] (dubins3d_dyn g v0 v1 g0 g1 r0 r1 k m).
Proof.
  constructor; cbn.
  - blind_list.
  - blind_list.
  - eexists. split; [reflexivity|]. blind_list.
  - exact I.
  - exact I.
  - intros u. apply affine_uniform.
    + intros l L. lens l. split; [cbn; now rewrite !xadd_zero|]. intros ?x E. injection E as <-. eexists. split; reflexivity.
    + intros l L. split; [reflexivity|]. intros M E. injection E as <-. reflexivity.
Qed.
Lemma linear_shiftable cs A B k m d : Forall (blind_row cs) A -> length A = length cs -> length B = length cs ->
  linear_dyn A B k m = Ok d -> shiftable cs d.
Proof.
  intros HA LA LB. unfold linear_dyn. destruct (py_assert (is_rect A (length A))); cbn [bind]; [|discriminate].
  destruct (py_assert (Nat.eqb (length A) (length B))); cbn [bind]; [|discriminate].
  intros E. injection E as <-. constructor; cbn; auto. intros u. apply linear_uniform; assumption.
Qed.

Lemma cwh_shiftable m n k me d b : cwh_dyn m n k me = Ok d -> shiftable [0; b; 0; 0; 0; 0] d.
Proof.
  unfold cwh_dyn, generate_cwh_matrices. cbn [String.eqb py_assert orb Ascii.eqb Bool.eqb bind].
  destruct (pydiv n1 m) as [im|]; cbn [bind]; [|discriminate]. intros E.
  apply (linear_shiftable [0; b; 0; 0; 0; 0]) in E; [exact E| |reflexivity|reflexivity].
  repeat (constructor; [blind_list|]). constructor.
Qed.
Lemma integ_shiftable1 m c k me d a : integ_dyn m c "1d" k me = Ok d -> shiftable [a; 0] d.
Proof.
  unfold integ_dyn, generate_dynamics_matrices. cbn [String.eqb py_assert orb Ascii.eqb Bool.eqb bind].
  destruct (pydiv n1 m) as [im|]; cbn [bind]; [|discriminate]. intros E.
  apply (linear_shiftable [a; 0]) in E; [exact E| |reflexivity|reflexivity].
  repeat (constructor; [blind_list|]). constructor.
Qed.
Lemma integ_shiftable2 m c k me d a b : integ_dyn m c "2d" k me = Ok d -> shiftable [a; b; 0; 0] d.
Proof.
  unfold integ_dyn, generate_dynamics_matrices. cbn [String.eqb py_assert orb Ascii.eqb Bool.eqb bind].
  destruct (pydiv n1 m) as [im|]; cbn [bind]; [|discriminate]. intros E.
  apply (linear_shiftable [a; b; 0; 0]) in E; [exact E| |reflexivity|reflexivity].
  repeat (constructor; [blind_list|]). constructor.
Qed.
Lemma integ_shiftable3 m c k me d a b z : integ_dyn m c "3d" k me = Ok d -> shiftable [a; b; z; 0; 0; 0] d.
Proof.
  unfold integ_dyn, generate_dynamics_matrices. cbn [String.eqb py_assert orb Ascii.eqb Bool.eqb bind].
  destruct (pydiv n1 m) as [im|]; cbn [bind]; [|discriminate]. intros E.
  apply (linear_shiftable [a; b; z; 0; 0; 0]) in E; [exact E| |reflexivity|reflexivity].
  repeat (constructor; [blind_list|]). constructor.
Qed.
Lemma rot2d_shiftable w m i acc vel n k me j d b : rot2d_dyn w m i acc vel n k me j = Ok d -> shiftable [0; b; 0; 0; 0; 0] d.
Proof.
  unfold rot2d_dyn, generate_cwh_matrices. destruct (j && negb (w_jax w))%bool; [discriminate|].
  cbn [String.eqb py_assert orb Ascii.eqb Bool.eqb bind].
  destruct (pydiv n1 m) as [im|]; cbn [bind]; [|discriminate].
  match goal with |- (_ <- py_assert (is_rect ?A0 _) ;; _) = _ -> _ => set (A := A0) end.
  destruct (py_assert (is_rect A (length A))); cbn [bind]; [|discriminate].
  destruct (py_assert _); cbn [bind]; [|discriminate].
  intros E. injection E as <-. constructor; cbn.
  - blind_list.
  - blind_list.
  - eexists. split; [reflexivity|]. blind_list.
  - reflexivity.
  - reflexivity.
  - intros u. apply affine_uniform.
    + intros l L. lens l. split.
      * unfold rot2d_f. cbn [displace zipw]. rewrite !xadd_zero.
        match goal with |- context [matvec A (A1 (map nf32 [?x; xadd ?y (Fin b); ?c; ?e]))] =>
          assert (EM : matvec A (A1 (map nf32 [x; xadd y (Fin b); c; e])) = matvec A (A1 (map nf32 [x; y; c; e]))) end.
        { symmetry. rewrite <- (matvec_blind [0; b; 0; 0] A).
          - f_equal. f_equal. cbn. rewrite !xadd_zero. destruct x0; reflexivity.
          - unfold A. repeat (constructor; [blind_list|]). constructor.
          - reflexivity. }
        rewrite EM. reflexivity.
      * intros ?x. unfold rot2d_f. destruct (matvec _ _) as [pv|]; cbn [bind]; [|discriminate].
        do 4 (match goal with |- context [aidx pv ?i] => destruct (aidx pv i); cbn [bind]; [|discriminate] end).
        intros E. injection E as <-. eexists. split; reflexivity.
    + intros l L. lens l. split; [cbn; now rewrite !xadd_zero|]. unfold rot2d_g. cbn [aidx nth_error bind].
      intros M. destruct (pydiv _ _); cbn [bind]; [|discriminate]. intros E. injection E as <-. reflexivity.
Qed.
Lemma sixdof_shiftable m I v n body k me d b : sixdof_dyn m I v n body k me = Ok d ->
  shiftable [0; b; 0; 0; 0; 0; 0; 0; 0; 0; 0; 0; 0] d.
Proof.
  unfold sixdof_dyn, generate_cwh_matrices. destruct v as [[v0 v1] v2].
  cbn [String.eqb py_assert orb Ascii.eqb Bool.eqb bind].
  destruct (pydiv n1 m) as [im|] eqn:Em; cbn [bind]; [|discriminate].
  match goal with |- (_ <- py_assert (is_rect ?A0 _) ;; _ <- py_assert (Nat.eqb _ (length ?B0)) ;; _) = _ -> _ => set (A := A0); set (B := B0) end.
  destruct (py_assert (is_rect A (length A))); cbn [bind]; [|discriminate].
  destruct (py_assert _); cbn [bind]; [|discriminate].
  intros E. injection E as <-. constructor; cbn.
  - blind_list.
  - blind_list.
  - exact Logic.I.
  - exact Logic.I.
  - exact Logic.I.
  - intros u. apply affine_uniform.
    + intros l L. lens l. split.
      * unfold sixdof_f. cbn [displace zipw]. rewrite !xadd_zero.
        match goal with |- context [matvec A (A1 [?x; xadd ?y (Fin b); ?z; ?c; ?e; ?g])] =>
          assert (EM : matvec A (A1 [x; xadd y (Fin b); z; c; e; g]) = matvec A (A1 [x; y; z; c; e; g])) end.
        { symmetry. rewrite <- (matvec_blind [0; b; 0; 0; 0; 0] A).
          - f_equal. f_equal. cbn. now rewrite !xadd_zero.
          - unfold A. repeat (constructor; [blind_list|]). constructor.
          - reflexivity. }
        rewrite EM. reflexivity.
      * intros ?x. unfold sixdof_f. destruct (matvec _ _) as [pv|]; cbn [bind]; [|discriminate].
        do 6 (match goal with |- context [aidx pv ?i] => destruct (aidx pv i); cbn [bind]; [|discriminate] end).
        intros E. injection E as <-. eexists. split; reflexivity.
    + intros l L. lens l. split; [cbn; now rewrite !xadd_zero|]. unfold sixdof_g. cbn [aidx nth_error bind].
      intros M. destruct body.
      * rewrite Em. cbn [bind].
        destruct (apply_quat (n1, n0, n0) _) as [[? ?] ?]. destruct (apply_quat (n0, n1, n0) _) as [[? ?] ?].
        destruct (apply_quat (n0, n0, n1) _) as [[? ?] ?]. cbn [bind]. intros E. injection E as <-. reflexivity.
      * cbn [bind]. intros E. injection E as <-. reflexivity.
Qed.

Lemma mk_displaced cs w d cd c0 c1 cm l acts : shiftable cs d -> solver_ok (d_method d) cs w -> length l = length cs ->
  displaced_result cs (run w (mk_entity d cd c0 c1 cm (A1 l)) acts) (run w (mk_entity d cd c0 c1 cm (A1 (displace cs l))) acts).
Proof.
  intros Sh Hw L. apply run_displaced; [exact Sh|exact Hw|]. unfold displaced, mk_entity. cbn.
  repeat (apply conj; [reflexivity|]). exists l. repeat (apply conj; [reflexivity || exact L|]).
  f_equal. revert l L. clear. induction cs as [|c cs IH]; intros [|x l] L; simpl in *; try discriminate; try reflexivity.
  unfold displace in *. simpl. f_equal. apply IH. lia.
Qed.
Lemma f32_id x : nf32 (Num := XR Fin) x = x.
Proof. destruct x; reflexivity. Qed.

Lemma dubins2d_displaced w k me v0 v1 h0 h1 a0 a1 x y hd v a b acts : solver_ok me [a; b; 0; 0] w ->
  displaced_result [a; b; 0; 0] (run w (dubins2d_aircraft k me v0 v1 h0 h1 a0 a1 x y hd v) acts)
    (run w (dubins2d_aircraft k me v0 v1 h0 h1 a0 a1 (xadd x (Fin a)) (xadd y (Fin b)) hd v) acts).
Proof.
  intros Hw. unfold dubins2d_aircraft. cbn [map]. rewrite !f32_id.
  assert (E : [xadd x (Fin a); xadd y (Fin b); hd; v] = displace [a; b; 0; 0] [x; y; hd; v]) by (cbn; now rewrite !xadd_zero).
  rewrite E. apply mk_displaced; [apply dubins2d_shiftable|exact Hw|reflexivity].
Qed.
Lemma dubins3d_displaced w k me v0 v1 g0 g1 r0 r1 h0 h1 rr0 rr1 a0 a1 x y z hd g r v a b c acts :
  solver_ok me [a; b; c; 0; 0; 0; 0] w ->
  displaced_result [a; b; c; 0; 0; 0; 0] (run w (dubins3d_aircraft k me v0 v1 g0 g1 r0 r1 h0 h1 rr0 rr1 a0 a1 x y z hd g r v) acts)
    (run w (dubins3d_aircraft k me v0 v1 g0 g1 r0 r1 h0 h1 rr0 rr1 a0 a1 (xadd x (Fin a)) (xadd y (Fin b)) (xadd z (Fin c)) hd g r v) acts).
Proof.
  intros Hw. unfold dubins3d_aircraft. cbn [map]. rewrite !f32_id.
  assert (E : [xadd x (Fin a); xadd y (Fin b); xadd z (Fin c); hd; g; r; v] = displace [a; b; c; 0; 0; 0; 0] [x; y; z; hd; g; r; v])
    by (cbn; now rewrite !xadd_zero).
  rewrite E. apply mk_displaced; [apply dubins3d_shiftable|exact Hw|reflexivity].
Qed.

Lemma linear_method A B k me (d : dyn xr) : linear_dyn A B k me = Ok d -> d_method d = me.
Proof.
  unfold linear_dyn. destruct (py_assert (is_rect A (length A))); cbn [bind]; [|discriminate].
  destruct (py_assert (Nat.eqb (length A) (length B))); cbn [bind]; [|discriminate]. intros E. injection E as <-. reflexivity.
Qed.
Lemma cwh_method m n k me (d : dyn xr) : cwh_dyn m n k me = Ok d -> d_method d = me.
Proof.
  unfold cwh_dyn. destruct (generate_cwh_matrices m n "3d") as [[A B]|]; cbn [bind]; [|discriminate]. apply linear_method.
Qed.
Lemma integ_method m c mo k me (d : dyn xr) : integ_dyn m c mo k me = Ok d -> d_method d = me.
Proof.
  unfold integ_dyn. destruct (generate_dynamics_matrices m c mo) as [[A B]|]; cbn [bind]; [|discriminate]. apply linear_method.
Qed.

Lemma cwh_displaced w m n k me x y z vx vy vz b : solver_ok me [0; b; 0; 0; 0; 0] w ->
  displaced_runs [0; b; 0; 0; 0; 0] w (cwh_spacecraft m n k me x y z vx vy vz) (cwh_spacecraft m n k me x (xadd y (Fin b)) z vx vy vz).
Proof.
  intros Hw acts. unfold cwh_spacecraft. cbn [map]. rewrite !f32_id.
  destruct (cwh_dyn m n k me) as [d|] eqn:Ed; cbn [bind]; [|reflexivity].
  assert (E : [x; xadd y (Fin b); z; vx; vy; vz] = displace [0; b; 0; 0; 0; 0] [x; y; z; vx; vy; vz]) by (cbn; now rewrite !xadd_zero).
  rewrite E. apply mk_displaced; [exact (cwh_shiftable _ _ _ _ _ _ Ed)|rewrite (cwh_method _ _ _ _ _ Ed); exact Hw|reflexivity].
Qed.
Lemma rot2d_displaced w m i al vl iw aw vw n k me j x y th vx vy wz b : solver_ok me [0; b; 0; 0; 0; 0] w ->
  displaced_runs [0; b; 0; 0; 0; 0] w (rot2d_spacecraft w m i al vl iw aw vw n k me j x y th vx vy wz)
    (rot2d_spacecraft w m i al vl iw aw vw n k me j x (xadd y (Fin b)) th vx vy wz).
Proof.
  intros Hw acts. unfold rot2d_spacecraft. cbn [map]. rewrite !f32_id.
  destruct (rot2d_limit al iw aw i) as [acc|]; cbn [bind]; [|reflexivity].
  destruct (rot2d_limit vl iw vw i) as [vel|]; cbn [bind]; [|reflexivity].
  destruct (rot2d_dyn w m i acc vel n k me j) as [d|] eqn:Ed; cbn [bind]; [|reflexivity].
  assert (E : [x; xadd y (Fin b); th; vx; vy; wz] = displace [0; b; 0; 0; 0; 0] [x; y; th; vx; vy; wz]) by (cbn; now rewrite !xadd_zero).
  rewrite E. apply mk_displaced; [exact (rot2d_shiftable _ _ _ _ _ _ _ _ _ _ _ Ed)| |reflexivity].
  replace (d_method d) with me; [exact Hw|]. revert Ed. unfold rot2d_dyn. destruct (j && negb (w_jax w))%bool; [discriminate|].
  destruct (generate_cwh_matrices m n "2d") as [[A B]|]; cbn [bind]; [|discriminate].
  destruct (py_assert _); cbn [bind]; [|discriminate]. destruct (py_assert _); cbn [bind]; [|discriminate].
  intros Ed. injection Ed as <-. reflexivity.
Qed.
Lemma sixdof_displaced w m I al vl iw aw vw tl body n k me x y z q1 q2 q3 q4 vx vy vz wx wy wz b :
  solver_ok me [0; b; 0; 0; 0; 0; 0; 0; 0; 0; 0; 0; 0] w ->
  displaced_runs [0; b; 0; 0; 0; 0; 0; 0; 0; 0; 0; 0; 0] w
    (sixdof_spacecraft m I al vl iw aw vw tl body n k me x y z q1 q2 q3 q4 vx vy vz wx wy wz)
    (sixdof_spacecraft m I al vl iw aw vw tl body n k me x (xadd y (Fin b)) z q1 q2 q3 q4 vx vy vz wx wy wz).
Proof.
  intros Hw acts. unfold sixdof_spacecraft. cbn [map]. rewrite !f32_id.
  destruct (number_list_to_np al [3%nat]) as [al'|]; cbn [bind]; [|reflexivity].
  destruct (number_list_to_np vl [3%nat]) as [vl'|]; cbn [bind]; [|reflexivity].
  destruct (limit3 al') as [[[? ?] ?]|]; cbn [bind]; [|reflexivity].
  destruct (limit3 vl') as [[[? ?] ?]|]; cbn [bind]; [|reflexivity]. cbv zeta.
  match goal with |- context [sixdof_dyn m I ?v n body k me] => destruct (sixdof_dyn m I v n body k me) as [d|] eqn:Ed end; cbn [bind]; [|reflexivity].
  assert (E : [x; xadd y (Fin b); z; q1; q2; q3; q4; vx; vy; vz; wx; wy; wz]
    = displace [0; b; 0; 0; 0; 0; 0; 0; 0; 0; 0; 0; 0] [x; y; z; q1; q2; q3; q4; vx; vy; vz; wx; wy; wz]) by (cbn; now rewrite !xadd_zero).
  rewrite E. apply mk_displaced; [exact (sixdof_shiftable _ _ _ _ _ _ _ _ _ Ed)| |reflexivity].
  replace (d_method d) with me; [exact Hw|]. revert Ed. unfold sixdof_dyn.
  destruct (generate_cwh_matrices m n "3d") as [[A B]|]; cbn [bind]; [|discriminate].
  destruct (py_assert _); cbn [bind]; [|discriminate]. destruct (py_assert _); cbn [bind]; [|discriminate].
  intros Ed. injection Ed as <-. reflexivity.
Qed.
Lemma integ1_displaced w m c k me x vx a : solver_ok me [a; 0] w ->
  displaced_runs [a; 0] w (integrator1d_body m c k me x vx) (integrator1d_body m c k me (xadd x (Fin a)) vx).
Proof.
  intros Hw acts. unfold integrator1d_body. cbn [map]. rewrite !f32_id.
  destruct (integ_dyn m c "1d" k me) as [d|] eqn:Ed; cbn [bind]; [|reflexivity].
  assert (E : [xadd x (Fin a); vx] = displace [a; 0] [x; vx]) by (cbn; now rewrite !xadd_zero).
  rewrite E. apply mk_displaced; [exact (integ_shiftable1 _ _ _ _ _ _ Ed)|rewrite (integ_method _ _ _ _ _ _ Ed); exact Hw|reflexivity].
Qed.
Lemma integ2_displaced w m c k me x y vx vy a b : solver_ok me [a; b; 0; 0] w ->
  displaced_runs [a; b; 0; 0] w (integrator2d_body m c k me x y vx vy) (integrator2d_body m c k me (xadd x (Fin a)) (xadd y (Fin b)) vx vy).
Proof.
  intros Hw acts. unfold integrator2d_body. cbn [map]. rewrite !f32_id.
  destruct (integ_dyn m c "2d" k me) as [d|] eqn:Ed; cbn [bind]; [|reflexivity].
  assert (E : [xadd x (Fin a); xadd y (Fin b); vx; vy] = displace [a; b; 0; 0] [x; y; vx; vy]) by (cbn; now rewrite !xadd_zero).
  rewrite E. apply mk_displaced; [exact (integ_shiftable2 _ _ _ _ _ _ _ Ed)|rewrite (integ_method _ _ _ _ _ _ Ed); exact Hw|reflexivity].
Qed.
Lemma integ3_displaced w m cc k me x y z vx vy vz a b c : solver_ok me [a; b; c; 0; 0; 0] w ->
  displaced_runs [a; b; c; 0; 0; 0] w (integrator3d_body m cc k me x y z vx vy vz)
    (integrator3d_body m cc k me (xadd x (Fin a)) (xadd y (Fin b)) (xadd z (Fin c)) vx vy vz).
Proof.
  intros Hw acts. unfold integrator3d_body. cbn [map]. rewrite !f32_id.
  destruct (integ_dyn m cc "3d" k me) as [d|] eqn:Ed; cbn [bind]; [|reflexivity].
  assert (E : [xadd x (Fin a); xadd y (Fin b); xadd z (Fin c); vx; vy; vz] = displace [a; b; c; 0; 0; 0] [x; y; z; vx; vy; vz]) by (cbn; now rewrite !xadd_zero).
  rewrite E. apply mk_displaced; [exact (integ_shiftable3 _ _ _ _ _ _ _ _ Ed)|rewrite (integ_method _ _ _ _ _ _ Ed); exact Hw|reflexivity].
Qed.

Lemma C94_ex w : exists e1 e2, 
  (e <- integrator1d_body (Fin 1) (Fin (1/2)) 0 "Euler" (Fin 3) (Fin 1) ;; run w e [(Fin 2, AArr (A1 [Fin 5]))]) = Ok e1 /\
  (e <- integrator1d_body (Fin 1) (Fin (1/2)) 0 "Euler" (Fin 10) (Fin 1) ;; run w e [(Fin 2, AArr (A1 [Fin 5]))]) = Ok e2 /\
  e_state e1 = A1 (map Fin [5; 2]) /\ e_state e2 = A1 (map Fin [12; 2]).
Proof.
  unfold integrator1d_body, integ_dyn, generate_dynamics_matrices, pydiv, linear_dyn. xstep.
  eexists. eexists. split; [xstep; reflexivity|]. split; [xstep; reflexivity|].
  cbn. split; fin_list; field.
Qed.
