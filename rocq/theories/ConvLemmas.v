(** Convergence of the Euler method for the Dubins aircraft. *)
From Coq Require Import String List Bool Arith ZArith Lia Reals Lra.
From Flocq Require Import Core.Core.
From Coquelicot Require Import Coquelicot.
From Verif Require Import PyBase Num Arr BaseModel Cwh Dubins Spec SpecBase SpecWrap XReal XTac SpecCwh LimLemmas
  WrapLemmas SymLemmas2 CommandLemmas.
Import List ListNotations.
Local Open Scope R_scope.

Lemma cos_close a b : Rabs (cos a - cos b) <= Rabs (a - b).
Proof.
  destruct (MVT_gen cos b a (fun x => - sin x)) as (c & _ & E).
  - intros x _. auto_derive; [exact I|ring].
  - intros x _. apply continuity_cos.
  - rewrite E, Rabs_mult, Rabs_Ropp. pose proof (Rabs_pos (a - b)).
    assert (Rabs (sin c) <= 1) by (apply Rabs_le; pose proof (SIN_bound c); lra). nra.
Qed.
Lemma sin_close a b : Rabs (sin a - sin b) <= Rabs (a - b).
Proof.
  destruct (MVT_gen sin b a cos) as (c & _ & E).
  - intros x _. auto_derive; [exact I|ring].
  - intros x _. apply continuity_sin.
  - rewrite E, Rabs_mult. pose proof (Rabs_pos (a - b)).
    assert (Rabs (cos c) <= 1) by (apply Rabs_le; pose proof (COS_bound c); lra). nra.
Qed.
Lemma cos_one x : Rabs (cos x) <= 1.
Proof. apply Rabs_le. pose proof (COS_bound x). lra. Qed.
Lemma sin_one x : Rabs (sin x) <= 1.
Proof. apply Rabs_le. pose proof (SIN_bound x). lra. Qed.

(** A product of bounded functions, difference of values. *)
Lemma prod_close a b a' b' A B ea eb : Rabs a' <= A -> Rabs b <= B -> Rabs (a - a') <= ea -> Rabs (b - b') <= eb ->
  Rabs (a * b - a' * b') <= ea * B + A * eb.
Proof.
  intros HA HB Ea Eb. replace (a * b - a' * b') with ((a - a') * b + a' * (b - b')) by ring.
  eapply Rle_trans; [apply Rabs_triang|]. rewrite !Rabs_mult.
  apply Rplus_le_compat; apply Rmult_le_compat; auto using Rabs_pos.
Qed.

Lemma tan_close a b c : 0 < c -> c <= cos a -> c <= cos b -> Rabs (tan a - tan b) <= Rabs (a - b) / (c * c).
Proof.
  intros Hc Ha Hb. assert (P : c * c <= cos a * cos b) by (apply Rmult_le_compat; lra). assert (0 < c * c) by nra.
  replace (tan a - tan b) with (sin (a - b) / (cos a * cos b)) by (unfold tan; rewrite sin_minus; field; lra).
  unfold Rdiv. rewrite Rabs_mult. apply Rmult_le_compat; auto using Rabs_pos.
  - pose proof (sin_close (a - b) 0). rewrite sin_0, !Rminus_0_r in H0. exact H0.
  - rewrite Rabs_pos_eq by (left; apply Rinv_0_lt_compat; lra). apply Rinv_le_contravar; auto.
Qed.
Lemma tan_bound a c : 0 < c -> c <= cos a -> Rabs (tan a) <= / c.
Proof.
  intros Hc Ha. unfold tan, Rdiv. rewrite Rabs_mult, <- (Rmult_1_l (/ c)). apply Rmult_le_compat; auto using Rabs_pos, sin_one.
  rewrite Rabs_pos_eq by (left; apply Rinv_0_lt_compat; lra). apply Rinv_le_contravar; auto.
Qed.

(** One step along the tangent, for a derivative that changes at rate at most [L]. *)
Lemma tangent (f f1 : R -> R) t h L : 0 <= h -> 0 <= L ->
  (forall u, t <= u <= t + h -> is_derive f u (f1 u)) ->
  (forall u, t <= u <= t + h -> Rabs (f1 t - f1 u) <= L * (u - t)) ->
  Rabs (f t + h * f1 t - f (t + h)) <= L * h^2.
Proof.
  intros Hh L0 D B.
  destruct (MVT_gen f t (t + h) f1) as (c & Hc & E); rewrite ?Rmin_left, ?Rmax_right in * by lra.
  - intros x Hx. apply D. lra.
  - intros x Hx. apply continuity_pt_filterlim, (@ex_derive_continuous R_AbsRing R_NormedModule). eexists. apply D. lra.
  - replace (f t + h * f1 t - f (t + h)) with (h * (f1 t - f1 c)) by (replace (f (t + h)) with (f t + f1 c * (t + h - t)) by lra; ring).
    rewrite Rabs_mult, (Rabs_pos_eq h) by lra. specialize (B c ltac:(lra)).
    assert (L * (c - t) <= L * h) by (apply Rmult_le_compat_l; lra). nra.
Qed.

Lemma run_app {T} {N : Num T} (w : world T) e acts acts' e1 : run w e acts = Ok e1 ->
  run w e (acts ++ acts') = run w e1 acts'.
Proof.
  revert e. induction acts as [|[h a] acts IH]; intros e; cbn [run app]; [intros [= ->]; reflexivity|].
  destruct (o_res _); [|discriminate]. cbn [bind]. apply IH.
Qed.

Lemma stopR_free lo hi x r : (r <= 0 \/ x < hi) -> (0 <= r \/ lo < x) -> stopR lo hi x r = r.
Proof.
  intros H1 H2. unfold stopR. destruct (Rle_dec hi x); [rewrite Rmin_left; lra|].
  destruct (Rle_dec x lo); [rewrite Rmax_left; lra|reflexivity].
Qed.
Lemma clipR_in lo hi x : lo <= x <= hi -> clipR lo hi x = x.
Proof. intros [H1 H2]. unfold clipR. rewrite Rmax_left, Rmin_left; lra. Qed.

(** A linear course that stays within the limits is never stopped. *)
Lemma course lo hi x r t h : 0 <= h -> lo <= x + r * t <= hi -> lo <= x + r * (t + h) <= hi ->
  let a := stopR lo hi (x + r * t) r in h * a = h * r /\ clipR lo hi (x + r * t + h * a) = x + r * (t + h).
Proof.
  intros Hh H1 H2 a. assert (E : h * a = h * r).
  { destruct (Req_dec h 0) as [-> | Nz]; [ring|]. f_equal. apply stopR_free.
    - destruct (Rle_dec r 0); [auto|right]. assert (0 < r * h) by nra. lra.
    - destruct (Rle_dec 0 r); [auto|right]. assert (0 < (- r) * h) by nra. lra. }
  split; [exact E|]. rewrite E. replace (x + r * t + h * r) with (x + r * (t + h)) by ring. apply clipR_in, H2.
Qed.

(** Errors add up. *)
Lemma err_next x p d h e1 e2 p' : Rabs (x - p) <= e1 -> Rabs (p + h * d - p') <= e2 -> Rabs (x + h * d - p') <= e1 + e2.
Proof.
  intros H1 H2. replace (x + h * d - p') with ((x - p) + (p + h * d - p')) by ring.
  eapply Rle_trans; [apply Rabs_triang|]. lra.
Qed.
Lemma err_next2 x p d d' h e1 e2 e3 p' : 0 <= h -> Rabs (x - p) <= e1 -> Rabs (d - d') <= e3 -> Rabs (p + h * d' - p') <= e2 ->
  Rabs (x + h * d - p') <= e1 + h * e3 + e2.
Proof.
  intros Hh H1 H3 H2. replace (x + h * d - p') with ((x - p) + h * (d - d') + (p + h * d' - p')) by ring.
  eapply Rle_trans; [apply Rabs_triang|]. apply Rplus_le_compat; [|exact H2].
  eapply Rle_trans; [apply Rabs_triang|]. apply Rplus_le_compat; [exact H1|].
  rewrite Rabs_mult, (Rabs_pos_eq h) by exact Hh. apply Rmult_le_compat_l; auto.
Qed.

Local Hint Extern 0 (Num xr) => exact (XR Fin) : typeclass_instances.

Section D2.
  Variables (w : world xr) (samples : Z) (v_min v_max hr_min hr_max acc_min acc_max : R) (x0 y0 hd0 v0 : xr)
    (acts : list (xr * action xr)) (e : entity xr) (x y psi v hr acc T V : R) (px py : R -> R).
  Hypothesis Sa : (samples <= 0)%Z.
  Hypothesis Re : run w (dubins2d_aircraft samples "Euler" (Fin v_min) (Fin v_max) (Fin hr_min) (Fin hr_max) (Fin acc_min) (Fin acc_max) x0 y0 hd0 v0) acts = Ok e.
  Hypothesis Es : e_state e = A1 (map Fin [x; y; psi; v]).
  Hypothesis Hhr : hr_min <= hr <= hr_max.
  Hypothesis Hacc : acc_min <= acc <= acc_max.
  Hypothesis T0 : 0 <= T.
  Hypothesis Hv : forall t, 0 <= t <= T -> v_min <= v + acc * t <= v_max.
  Hypothesis HV : forall t, 0 <= t <= T -> Rabs (v + acc * t) <= V.
  Hypothesis px0 : px 0 = x.
  Hypothesis py0 : py 0 = y.
  Hypothesis dpx : forall t, 0 <= t <= T -> is_derive px t ((v + acc * t) * cos (psi + hr * t)).
  Hypothesis dpy : forall t, 0 <= t <= T -> is_derive py t ((v + acc * t) * sin (psi + hr * t)).

  Let L := Rabs acc + V * Rabs hr.
  Lemma V_pos : 0 <= V.
  Proof. eapply Rle_trans; [apply Rabs_pos|apply (HV 0)]. lra. Qed.
  Lemma L_pos : 0 <= L.
  Proof. unfold L. pose proof V_pos. pose proof (Rabs_pos acc). pose proof (Rabs_pos hr). nra. Qed.

  Lemma lin_diff p r t u : t <= u -> Rabs (p + r * t - (p + r * u)) = Rabs r * (u - t).
  Proof.
    intros H. replace (p + r * t - (p + r * u)) with (- (r * (u - t))) by ring.
    rewrite Rabs_Ropp, Rabs_mult, (Rabs_pos_eq (u - t)) by lra. reflexivity.
  Qed.

  Lemma dub2_lip (g : R -> R) : (forall a b, Rabs (g a - g b) <= Rabs (a - b)) -> (forall a, Rabs (g a) <= 1) ->
    forall t u, 0 <= t -> t <= u <= T ->
    Rabs ((v + acc * t) * g (psi + hr * t) - (v + acc * u) * g (psi + hr * u)) <= L * (u - t).
  Proof.
    intros G1 G2 t u H0 Hu. eapply Rle_trans.
    - apply (prod_close _ _ _ _ V 1 (Rabs acc * (u - t)) (Rabs hr * (u - t))).
      + apply HV. lra.
      + apply G2.
      + rewrite lin_diff; lra.
      + eapply Rle_trans; [apply G1|]. rewrite lin_diff; lra.
    - unfold L. lra.
  Qed.

  Lemma dub2_iter h k : 0 <= h -> INR k * h <= T -> exists e' x' y' hd',
    run w e (repeat (Fin h, AArr (A1 (map Fin [hr; acc]))) k) = Ok e' /\
    e_state e' = A1 (map Fin [x'; y'; hd'; v + acc * (INR k * h)]) /\
    same_angle hd' (psi + hr * (INR k * h)) /\
    Rabs (x' - px (INR k * h)) <= INR k * (L * h^2) /\ Rabs (y' - py (INR k * h)) <= INR k * (L * h^2).
  Proof.
    intros Hh. induction k as [|k IH]; intros HT.
    - exists e, x, y, psi. cbn [repeat run INR]. rewrite !Rmult_0_l, !Rmult_0_r, !Rplus_0_r, px0, py0.
      split; [reflexivity|]. split; [exact Es|]. split; [exists 0%Z; lra|]. rewrite !Rminus_diag_eq, Rabs_R0 by reflexivity. lra.
    - rewrite S_INR in *. pose proof (pos_INR k) as K0. assert (Kh : 0 <= INR k * h) by (apply Rmult_le_pos; auto).
      destruct IH as (e1 & x1 & y1 & hd1 & R1 & S1 & A1' & X1 & Y1); [lra|].
      rewrite Rmult_plus_distr_r, Rmult_1_l in *. set (t := INR k * h) in *.
      assert (R2 : run w (dubins2d_aircraft samples "Euler" (Fin v_min) (Fin v_max) (Fin hr_min) (Fin hr_max) (Fin acc_min) (Fin acc_max) x0 y0 hd0 v0)
        (acts ++ repeat (Fin h, AArr (A1 (map Fin [hr; acc]))) k) = Ok e1) by (rewrite (run_app _ _ _ _ _ Re); exact R1).
      destruct (dubins2d_euler (fun x => x) w _ _ _ _ _ _ _ _ _ _ _ _ _ h _ _ _ _ hr acc eq_refl Sa R2 S1) as (O & _ & hd2 & _ & A2 & S2).
      set (o := entity_step _ _ _ _) in *.
      destruct (course v_min v_max v acc t h Hh (Hv t ltac:(lra)) (Hv (t + h) ltac:(lra))) as [_ C].
      rewrite (clipR_in acc_min acc_max) in S2 by exact Hacc. rewrite (clipR_in hr_min hr_max) in A2 by exact Hhr. rewrite C in S2.
      destruct (turn_cos _ _ A1') as [Ec Esn]. rewrite Ec, Esn in S2.
      exists (o_entity o). do 3 eexists. split; [|split; [exact S2|split]].
      + replace (S k) with (k + 1)%nat by lia. rewrite repeat_app. rewrite (run_app _ _ _ _ _ R1). cbn [repeat run].
        match goal with |- context [entity_step ?a ?b ?c ?d] => change (entity_step a b c d) with o end. rewrite O. reflexivity.
      + eapply sa_trans; [exact A2|]. replace (psi + hr * (t + h)) with (psi + hr * t + h * hr) by ring. apply sa_plus, A1'.
      + split.
        * eapply Rle_trans; [apply (err_next _ (px t) _ _ (INR k * (L * h^2)) (L * h^2)); [exact X1|]|lra].
          apply (tangent px (fun t => (v + acc * t) * cos (psi + hr * t))); auto using L_pos.
          -- intros u Hu. apply dpx. lra.
          -- intros u Hu. apply (dub2_lip cos cos_close cos_one); lra.
        * eapply Rle_trans; [apply (err_next _ (py t) _ _ (INR k * (L * h^2)) (L * h^2)); [exact Y1|]|lra].
          apply (tangent py (fun t => (v + acc * t) * sin (psi + hr * t))); auto using L_pos.
          -- intros u Hu. apply dpy. lra.
          -- intros u Hu. apply (dub2_lip sin sin_close sin_one); lra.
  Qed.

  Lemma dub2_converges k : (0 < k)%nat -> exists e' x' y' hd',
    run w e (repeat (Fin (T / INR k), AArr (A1 (map Fin [hr; acc]))) k) = Ok e' /\
    e_state e' = A1 (map Fin [x'; y'; hd'; v + acc * T]) /\
    same_angle hd' (psi + hr * T) /\
    Rabs (x' - px T) <= (Rabs acc + V * Rabs hr) * T * (T / INR k) /\
    Rabs (y' - py T) <= (Rabs acc + V * Rabs hr) * T * (T / INR k).
  Proof.
    intros Hk. assert (NP : 0 < INR k) by (apply lt_0_INR; lia).
    assert (Hh : 0 <= T / INR k) by (apply Rmult_le_pos; [auto|left; apply Rinv_0_lt_compat; auto]).
    assert (Nh : INR k * (T / INR k) = T) by (field; lra).
    destruct (dub2_iter (T / INR k) k Hh ltac:(lra)) as (e' & x' & y' & hd' & H). rewrite Nh in H.
    assert (Q : INR k * (L * (T / INR k)^2) = L * T * (T / INR k)) by (field; lra).
    rewrite Q in H. exists e', x', y', hd'. exact H.
  Qed.
End D2.

Section D3.
  Variables (w : world xr) (samples : Z) (v_min v_max g_min g_max r_min r_max gr_min gr_max rr_min rr_max acc_min acc_max : R)
    (x0 y0 z0 hd0 ga0 ro0 v0 : xr) (acts : list (xr * action xr)) (e : entity xr)
    (x y z psi ga ro v gr rr acc T V vm c : R) (px py pz ps : R -> R).
  Hypothesis Sa : (samples <= 0)%Z.
  Hypothesis Re : run w (dubins3d_aircraft samples "Euler" (Fin v_min) (Fin v_max) (Fin g_min) (Fin g_max) (Fin r_min) (Fin r_max)
    (Fin gr_min) (Fin gr_max) (Fin rr_min) (Fin rr_max) (Fin acc_min) (Fin acc_max) x0 y0 z0 hd0 ga0 ro0 v0) acts = Ok e.
  Hypothesis Es : e_state e = A1 (map Fin [x; y; z; psi; ga; ro; v]).
  Hypothesis Hgr : gr_min <= gr <= gr_max.
  Hypothesis Hrr : rr_min <= rr <= rr_max.
  Hypothesis Hacc : acc_min <= acc <= acc_max.
  Hypothesis Lg : - PI <= g_min /\ g_max < PI.
  Hypothesis Lr : - PI <= r_min /\ r_max < PI.
  Hypothesis T0 : 0 <= T.
  Hypothesis Hv : forall t, 0 <= t <= T -> v_min <= v + acc * t <= v_max /\ vm <= v + acc * t <= V.
  Hypothesis Hga : forall t, 0 <= t <= T -> g_min <= ga + gr * t <= g_max.
  Hypothesis Hro : forall t, 0 <= t <= T -> r_min <= ro + rr * t <= r_max /\ c <= cos (ro + rr * t).
  Hypothesis vm0 : 0 < vm.
  Hypothesis c0 : 0 < c.
  Hypothesis P0 : px 0 = x /\ py 0 = y /\ pz 0 = z /\ ps 0 = psi.
  Hypothesis dpx : forall t, 0 <= t <= T -> is_derive px t ((v + acc * t) * cos (ps t) * cos (ga + gr * t)).
  Hypothesis dpy : forall t, 0 <= t <= T -> is_derive py t ((v + acc * t) * sin (ps t) * cos (ga + gr * t)).
  Hypothesis dpz : forall t, 0 <= t <= T -> is_derive pz t (- (v + acc * t) * sin (ga + gr * t)).
  Hypothesis dps : forall t, 0 <= t <= T -> is_derive ps t (32.17 / (v + acc * t) * tan (ro + rr * t)).

  Let B := 32.17 / (vm * c).
  Let LP := 32.17 * (Rabs acc / (vm * vm * c) + Rabs rr / (vm * (c * c))).
  Let LX := Rabs acc + V * (B + Rabs gr).
  Let LZ := Rabs acc + V * Rabs gr.

  Lemma pos3 : 0 < V /\ 0 < B /\ 0 <= LP /\ 0 <= LX /\ 0 <= LZ.
  Proof.
    assert (0 < V) by (destruct (Hv 0); lra). pose proof (Rabs_pos acc). pose proof (Rabs_pos gr). pose proof (Rabs_pos rr).
    assert (0 < B) by (unfold B; apply Rdiv_lt_0_compat; [lra|nra]).
    assert (0 < vm * vm * c) by (repeat apply Rmult_lt_0_compat; auto).
    assert (0 < vm * (c * c)) by (repeat apply Rmult_lt_0_compat; auto).
    repeat split; auto.
    - unfold LP. apply Rmult_le_pos; [lra|]. apply Rplus_le_le_0_compat; apply Rmult_le_pos; auto; left; apply Rinv_0_lt_compat; auto.
    - unfold LX. nra.
    - unfold LZ. nra.
  Qed.

  Lemma psi_rate t : 0 <= t <= T -> Rabs (32.17 / (v + acc * t) * tan (ro + rr * t)) <= B.
  Proof.
    intros Ht. destruct (Hv t Ht) as [_ [V1 V2]]. destruct (Hro t Ht) as [_ C1].
    rewrite Rabs_mult. unfold B. replace (32.17 / (vm * c)) with (32.17 / vm * / c) by (field; lra).
    apply Rmult_le_compat; auto using Rabs_pos, tan_bound.
    unfold Rdiv. rewrite Rabs_mult, (Rabs_pos_eq 32.17) by lra. apply Rmult_le_compat_l; [lra|].
    rewrite Rabs_pos_eq by (left; apply Rinv_0_lt_compat; lra). apply Rinv_le_contravar; auto.
  Qed.

  Lemma psi_lip t u : 0 <= t -> t <= u <= T ->
    Rabs (32.17 / (v + acc * t) * tan (ro + rr * t) - 32.17 / (v + acc * u) * tan (ro + rr * u)) <= LP * (u - t).
  Proof.
    intros H0 Hu. destruct (Hv t ltac:(lra)) as [_ [V1 _]]. destruct (Hro t ltac:(lra)) as [_ C1].
    destruct (Hv u ltac:(lra)) as [_ [V3 _]]. destruct (Hro u ltac:(lra)) as [_ C2].
    eapply Rle_trans.
    - apply (prod_close _ _ _ _ (32.17 / vm) (/ c) (32.17 * (Rabs acc * (u - t)) / (vm * vm)) (Rabs rr * (u - t) / (c * c))).
      + unfold Rdiv. rewrite Rabs_mult, (Rabs_pos_eq 32.17) by lra. apply Rmult_le_compat_l; [lra|].
        rewrite Rabs_pos_eq by (left; apply Rinv_0_lt_compat; lra). apply Rinv_le_contravar; auto.
      + apply tan_bound; auto.
      + set (a := v + acc * t) in *. set (b := v + acc * u) in *.
        replace (32.17 / a - 32.17 / b) with (32.17 * (b - a) / (a * b)) by (field; lra).
        unfold Rdiv. rewrite !Rabs_mult, (Rabs_pos_eq 32.17) by lra.
        assert (Q : Rabs (b - a) = Rabs acc * (u - t)) by (rewrite Rabs_minus_sym; apply lin_diff; lra). rewrite Q.
        apply Rmult_le_compat_l; [apply Rmult_le_pos; [lra|rewrite <- Q; apply Rabs_pos]|].
        assert (vm * vm <= a * b) by (apply Rmult_le_compat; lra). assert (0 < vm * vm) by nra.
        rewrite Rabs_pos_eq by (left; apply Rinv_0_lt_compat; lra). apply Rinv_le_contravar; auto.
      + rewrite <- (lin_diff ro rr t u) by lra. apply tan_close; auto.
    - unfold LP. right. field. lra.
  Qed.

  Lemma psi_close t u : 0 <= t -> t <= u <= T -> Rabs (ps t - ps u) <= B * (u - t).
  Proof.
    intros H0 Hu. rewrite Rabs_minus_sym.
    destruct (MVT_gen ps t u (fun t => 32.17 / (v + acc * t) * tan (ro + rr * t))) as (d & Hd & E); rewrite ?Rmin_left, ?Rmax_right in * by lra.
    - intros q Hq. apply dps. lra.
    - intros q Hq. apply continuity_pt_filterlim, (@ex_derive_continuous R_AbsRing R_NormedModule). eexists. apply dps. lra.
    - rewrite E, Rabs_mult, (Rabs_pos_eq (u - t)) by lra. apply Rmult_le_compat_r; [lra|]. apply psi_rate. lra.
  Qed.

  Lemma speed_abs t : 0 <= t <= T -> Rabs (v + acc * t) <= V.
  Proof. intros Ht. destruct (Hv t Ht). rewrite Rabs_pos_eq; lra. Qed.

  Lemma xy_lip (g : R -> R) : (forall a b, Rabs (g a - g b) <= Rabs (a - b)) -> (forall a, Rabs (g a) <= 1) ->
    forall t u, 0 <= t -> t <= u <= T ->
    Rabs ((v + acc * t) * g (ps t) * cos (ga + gr * t) - (v + acc * u) * g (ps u) * cos (ga + gr * u)) <= LX * (u - t).
  Proof.
    intros G1 G2 t u H0 Hu. destruct pos3 as (V0 & _). eapply Rle_trans.
    - apply (prod_close _ _ _ _ V 1 (Rabs acc * (u - t) * 1 + V * (B * (u - t))) (Rabs gr * (u - t))).
      + rewrite Rabs_mult. rewrite <- (Rmult_1_r V). apply Rmult_le_compat; auto using Rabs_pos. apply speed_abs. lra.
      + apply cos_one.
      + apply prod_close; auto.
        * apply speed_abs. lra.
        * rewrite lin_diff; lra.
        * eapply Rle_trans; [apply G1|]. apply psi_close; lra.
      + eapply Rle_trans; [apply cos_close|]. rewrite lin_diff; lra.
    - unfold LX. right. ring.
  Qed.

  Lemma z_lip t u : 0 <= t -> t <= u <= T ->
    Rabs (- (v + acc * t) * sin (ga + gr * t) - - (v + acc * u) * sin (ga + gr * u)) <= LZ * (u - t).
  Proof.
    intros H0 Hu. eapply Rle_trans.
    - apply (prod_close _ _ _ _ V 1 (Rabs acc * (u - t)) (Rabs gr * (u - t))).
      + rewrite Rabs_Ropp. apply speed_abs. lra.
      + apply sin_one.
      + replace (- (v + acc * t) - - (v + acc * u)) with (- ((v + acc * t) - (v + acc * u))) by ring. rewrite Rabs_Ropp, lin_diff; lra.
      + eapply Rle_trans; [apply sin_close|]. rewrite lin_diff; lra.
    - unfold LZ. right. ring.
  Qed.

  (** The same angle within one turn. *)
  Lemma same_in a b lo hi : - PI <= a < PI -> same_angle a b -> lo <= b <= hi -> - PI <= lo -> hi < PI -> a = b.
  Proof.
    intros Ha [k K] Hb H1 H2. pose proof PI_RGT_0.
    assert (k = 0)%Z.
    { assert (IZR k < 1) by nra. assert (-1 < IZR k) by nra. apply lt_IZR in H0. apply lt_IZR in H3. lia. }
    subst k. lra.
  Qed.

  Lemma dub3_iter h k : 0 <= h -> INR k * h <= T -> exists e' x' y' z' hd' hd,
    run w e (repeat (Fin h, AArr (A1 (map Fin [gr; rr; acc]))) k) = Ok e' /\
    e_state e' = A1 (map Fin [x'; y'; z'; hd'; ga + gr * (INR k * h); ro + rr * (INR k * h); v + acc * (INR k * h)]) /\
    same_angle hd' hd /\ Rabs (hd - ps (INR k * h)) <= INR k * (LP * h^2) /\
    Rabs (x' - px (INR k * h)) <= INR k * ((LX + V * LP * T) * h^2) /\
    Rabs (y' - py (INR k * h)) <= INR k * ((LX + V * LP * T) * h^2) /\
    Rabs (z' - pz (INR k * h)) <= INR k * (LZ * h^2).
  Proof.
    intros Hh. destruct P0 as (px0 & py0 & pz0 & ps0). destruct pos3 as (V0 & B0 & LP0 & LX0 & LZ0).
    induction k as [|k IH]; intros HT.
    - exists e, x, y, z, psi, psi. cbn [repeat run INR]. rewrite !Rmult_0_l, !Rmult_0_r, !Rplus_0_r, px0, py0, pz0, ps0.
      split; [reflexivity|]. split; [exact Es|]. split; [exists 0%Z; lra|]. rewrite !Rminus_diag_eq, Rabs_R0 by reflexivity. lra.
    - rewrite S_INR in *. pose proof (pos_INR k) as K0. assert (Kh : 0 <= INR k * h) by (apply Rmult_le_pos; auto).
      destruct IH as (e1 & x1 & y1 & z1 & hd1 & hq & R1 & S1 & A1' & H1 & X1 & Y1 & Z1); [lra|].
      assert (KT : INR k * (LP * h^2) <= LP * T * h).
      { replace (INR k * (LP * h^2)) with (LP * h * (INR k * h)) by ring. replace (LP * T * h) with (LP * h * T) by ring.
        apply Rmult_le_compat_l; [apply Rmult_le_pos; auto|lra]. }
      rewrite Rmult_plus_distr_r, Rmult_1_l in *. set (t := INR k * h) in *.
      assert (R2 : run w (dubins3d_aircraft samples "Euler" (Fin v_min) (Fin v_max) (Fin g_min) (Fin g_max) (Fin r_min) (Fin r_max)
        (Fin gr_min) (Fin gr_max) (Fin rr_min) (Fin rr_max) (Fin acc_min) (Fin acc_max) x0 y0 z0 hd0 ga0 ro0 v0)
        (acts ++ repeat (Fin h, AArr (A1 (map Fin [gr; rr; acc]))) k) = Ok e1) by (rewrite (run_app _ _ _ _ _ Re); exact R1).
      destruct (Hv t ltac:(lra)) as [Hv1 [Hv2 _]]. destruct (Hro t ltac:(lra)) as [Hr1 Hr2].
      destruct (Hv (t + h) ltac:(lra)) as [Hv3 _]. destruct (Hro (t + h) ltac:(lra)) as [Hr3 _].
      pose proof (Hga t ltac:(lra)) as Hg1. pose proof (Hga (t + h) ltac:(lra)) as Hg3.
      assert (NZ : v + acc * t <> 0) by lra. assert (NC : cos (ro + rr * t) <> 0) by lra.
      destruct (dubins3d_euler (fun x => x) w _ _ _ _ _ _ _ _ _ _ _ _ _ _ _ _ _ _ _ _ _ _ h _ _ _ _ _ _ _ gr rr acc eq_refl Sa NZ NC R2 S1)
        as (O & _ & hd2 & ga2 & ro2 & [_ A2] & [G1 G2] & [Q1 Q2] & S2).
      set (o := entity_step _ _ _ _) in *.
      rewrite (clipR_in acc_min acc_max) in S2 by exact Hacc.
      rewrite (clipR_in gr_min gr_max) in G2 by exact Hgr. rewrite (clipR_in rr_min rr_max) in Q2 by exact Hrr.
      destruct (course v_min v_max v acc t h Hh Hv1 Hv3) as [_ C]. rewrite C in S2. clear C.
      destruct (course g_min g_max ga gr t h Hh Hg1 Hg3) as [_ C]. rewrite C in G2. clear C.
      destruct (course r_min r_max ro rr t h Hh Hr1 Hr3) as [_ C]. rewrite C in Q2. clear C.
      assert (EG : ga2 = ga + gr * (t + h)) by (apply (same_in _ _ g_min g_max); tauto).
      assert (EQ : ro2 = ro + rr * (t + h)) by (apply (same_in _ _ r_min r_max); tauto).
      subst ga2 ro2.
      destruct (turn_cos _ _ A1') as [Ec Esn]. rewrite Ec, Esn in S2.
      assert (HD : Rabs (hq - ps t) <= LP * T * h) by lra.
      assert (XY : forall g : R -> R, (forall a b, Rabs (g a - g b) <= Rabs (a - b)) ->
        Rabs ((v + acc * t) * g hq * cos (ga + gr * t) - (v + acc * t) * g (ps t) * cos (ga + gr * t)) <= V * (LP * T * h)).
      { intros g Hgl. replace ((v + acc * t) * g hq * cos (ga + gr * t) - (v + acc * t) * g (ps t) * cos (ga + gr * t))
          with ((v + acc * t) * cos (ga + gr * t) * (g hq - g (ps t))) by ring.
        rewrite !Rabs_mult. apply Rmult_le_compat; [apply Rmult_le_pos; apply Rabs_pos|apply Rabs_pos| |].
        - rewrite <- (Rmult_1_r V). apply Rmult_le_compat; auto using Rabs_pos, cos_one. apply speed_abs. lra.
        - eapply Rle_trans; [apply Hgl|exact HD]. }
      exists (o_entity o). do 5 eexists. split; [|split; [exact S2|split; [|repeat split]]].
      + replace (S k) with (k + 1)%nat by lia. rewrite repeat_app. rewrite (run_app _ _ _ _ _ R1). cbn [repeat run].
        match goal with |- context [entity_step ?a ?b ?c ?d] => change (entity_step a b c d) with o end. rewrite O. reflexivity.
      + eapply sa_trans; [exact A2|]. apply sa_plus, A1'.
      + eapply Rle_trans; [apply (err_next _ (ps t) _ _ (INR k * (LP * h^2)) (LP * h^2)); [exact H1|]|lra].
        apply (tangent ps (fun t => 32.17 / (v + acc * t) * tan (ro + rr * t))); auto.
        * intros u Hu. apply dps. lra.
        * intros u Hu. apply psi_lip; lra.
      + eapply Rle_trans; [apply (err_next2 _ (px t) _ ((v + acc * t) * cos (ps t) * cos (ga + gr * t)) h _ (LX * h^2) (V * (LP * T * h)) _ Hh X1)|].
        * apply XY, cos_close.
        * apply (tangent px (fun t => (v + acc * t) * cos (ps t) * cos (ga + gr * t))); auto.
          -- intros u Hu. apply dpx. lra.
          -- intros u Hu. apply (xy_lip cos cos_close cos_one); lra.
        * right. ring.
      + eapply Rle_trans; [apply (err_next2 _ (py t) _ ((v + acc * t) * sin (ps t) * cos (ga + gr * t)) h _ (LX * h^2) (V * (LP * T * h)) _ Hh Y1)|].
        * apply XY, sin_close.
        * apply (tangent py (fun t => (v + acc * t) * sin (ps t) * cos (ga + gr * t))); auto.
          -- intros u Hu. apply dpy. lra.
          -- intros u Hu. apply (xy_lip sin sin_close sin_one); lra.
        * right. ring.
      + eapply Rle_trans; [apply (err_next _ (pz t) _ _ (INR k * (LZ * h^2)) (LZ * h^2)); [exact Z1|]|lra].
        apply (tangent pz (fun t => - (v + acc * t) * sin (ga + gr * t))); auto.
        * intros u Hu. apply dpz. lra.
        * intros u Hu. apply z_lip; lra.
  Qed.

  Lemma dub3_converges k : (0 < k)%nat -> exists e' x' y' z' hd' hd,
    run w e (repeat (Fin (T / INR k), AArr (A1 (map Fin [gr; rr; acc]))) k) = Ok e' /\
    e_state e' = A1 (map Fin [x'; y'; z'; hd'; ga + gr * T; ro + rr * T; v + acc * T]) /\
    same_angle hd' hd /\ Rabs (hd - ps T) <= LP * T * (T / INR k) /\
    Rabs (x' - px T) <= (LX + V * LP * T) * T * (T / INR k) /\
    Rabs (y' - py T) <= (LX + V * LP * T) * T * (T / INR k) /\
    Rabs (z' - pz T) <= LZ * T * (T / INR k).
  Proof.
    intros Hk. assert (NP : 0 < INR k) by (apply lt_0_INR; lia).
    assert (Hh : 0 <= T / INR k) by (apply Rmult_le_pos; [auto|left; apply Rinv_0_lt_compat; auto]).
    assert (Nh : INR k * (T / INR k) = T) by (field; lra).
    destruct (dub3_iter (T / INR k) k Hh ltac:(lra)) as (e' & x' & y' & z' & hd' & hd & H). rewrite Nh in H.
    assert (Q : forall L, INR k * (L * (T / INR k)^2) = L * T * (T / INR k)) by (intros; field; lra).
    rewrite !Q in H. exists e', x', y', z', hd', hd. exact H.
  Qed.
End D3.
