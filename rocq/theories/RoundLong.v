(** Long binary64 runs of the CWH spacecraft against exact runs (C106). *)
From Coq Require Import String ZArith Reals Bool List Lra Lia.
From Flocq Require Import Core.Core IEEE754.BinarySingleNaN.
From Verif Require Import PyBase Num Arr BaseModel Cwh Spec SpecBase SpecCwh NumOrdLemmas ArrLemmas BaseLemmas BaseLemmas2 BaseLemmas3 XReal XTac RkLemmas CwhLemmas LimLemmas
  Float64 F64Wrap F64Bound F64Err SpecRound RoundCwh RoundRun SpecLong.
Import List ListNotations.
Local Open Scope R_scope.

Lemma scomp (a : f64) t g r L q B c E : 1 <= L -> agrees a t g -> g <= L * (q * (B + E) + c) -> Rabs (t - r) <= L * (q * E) ->
  is_finite a = true /\ Rabs (B2R a - r) <= L * (q * E + (bpow radix2 (-48) * (q * (B + E) + c) + bpow radix2 (-700))).
Proof.
  intros HL [F A] G D. split; [exact F|]. pose proof (bpow_gt_0 radix2 (-48)). pose proof (bpow_gt_0 radix2 (-700)).
  replace (B2R a - r) with ((t - r) + (B2R a - t)) by ring. eapply Rle_trans; [apply Rabs_triang|].
  assert (bpow radix2 (-48) * g <= bpow radix2 (-48) * (L * (q * (B + E) + c))) by (apply Rmult_le_compat_l; lra).
  assert (1 * bpow radix2 (-700) <= L * bpow radix2 (-700)) by (apply Rmult_le_compat_r; lra). lra.
Qed.

Lemma clip_1 k : Rabs (clipR (-1) 1 k) <= 1.
Proof. unfold clipR, Rmin, Rmax. repeat destruct (Rle_dec _ _); apply Rabs_le; lra. Qed.

(** One exact Euler step. *)
Lemma exact_step (wr : world xr) (er : entity xr) M N samples h X Y Z VX VY VZ fx fy fz :
  cwh_dyn (N := XR Fin) (Fin M) (Fin N) samples "Euler" = Ok (e_dyn er) -> (samples <= 0)%Z -> M <> 0 ->
  e_cmin er = A0 (Fin (-1/1)) -> e_cmax er = A0 (Fin (1/1)) -> e_state er = A1 (map Fin [X; Y; Z; VX; VY; VZ]) ->
  let u := clipR (-1) 1 fx in let v := clipR (-1) 1 fy in let t := clipR (-1) 1 fz in
  let o := entity_step (N := XR Fin) wr er (Fin h) (AArr (A1 (map Fin [fx; fy; fz]))) in
  o_res o = Ok tt /\
  e_state (o_entity o) = A1 (map Fin [X + h * VX; Y + h * VY; Z + h * VZ; VX + h * (3 * N ^ 2 * X + 2 * N * VY + u / M);
      VY + h * (- 2 * N * VX + v / M); VZ + h * (- N ^ 2 * Z + t / M)]).
Proof.
  intros Dr Sa Nz C1r C2r Er u v t o.
  assert (FF : forall a : R, free (N := XR Fin) (Fin a)) by (intros a; repeat split; try reflexivity; apply clip1_none).
  edestruct (cwh_euler_gen (N := XR Fin) wr er (Fin M) (Fin N) samples (Fin h) (map Fin [X; Y; Z; VX; VY; VZ]) (map Fin [fx; fy; fz]))
    as (P1 & P2).
  1: exact Dr. 1: exact Sa. 1: exact C1r. 1: exact C2r. 1: exact Er.
  2:{ cbn [map]. change (n1 (N := XR Fin)) with (Fin (1/1)). change (nZ (N := XR Fin) (-1)) with (Fin (-1/1)).
      replace (Fin (-1/1)) with (Fin (-1)) by (f_equal; lra). replace (Fin (1/1)) with (Fin 1) by (f_equal; lra).
      rewrite !(clip1_Fin Fin). apply (cwh_raw Fin M N samples "Euler" (e_dyn er) Nz Dr). }
  1: reflexivity. 1: repeat constructor; apply FF. 1: repeat constructor; apply FF.
  { cbn [map zipw nadd nmul XR xadd xmul]. repeat constructor; apply FF. }
  fold u v t in P2. cbn [map zipw nadd nmul XR xadd xmul] in P2. split; [exact P1|exact P2].
Qed.

(** Growth rate of positions on the scale [L]. *)
Notation rate L n := (/ L + 3 * n ^ 2 * L + 2 * Rabs n) (only parsing).

Section F.
  Variable lm : libm.

  Lemma step_scaled (w : world f64) (wr : world xr) (e : entity f64) (er : entity xr) (m n : f64) samples (h : f64) s r (fx fy fz : f64) L H B E :
    cwh_dyn (N := F64 lm) m n samples "Euler" = Ok (e_dyn e) ->
    cwh_dyn (N := XR Fin) (Fin (B2R m)) (Fin (B2R n)) samples "Euler" = Ok (e_dyn er) -> (samples <= 0)%Z ->
    e_cmin e = A0 (nZ (N := F64 lm) (-1)) -> e_cmax e = A0 (n1 (N := F64 lm)) ->
    e_cmin er = A0 (Fin (-1/1)) -> e_cmax er = A0 (Fin (1/1)) ->
    is_finite m = true -> bpow radix2 (-100) <= Rabs (B2R m) -> within 50 n -> within 100 h -> Rabs (B2R h) <= H ->
    Forall (fun f : f64 => is_finite f = true) [fx; fy; fz] -> 1 <= L ->
    e_state e = A1 s -> e_state er = A1 (map Fin r) -> length s = 6%nat -> tracks_scaled L E s r -> 0 <= E ->
    sized L B r -> L * (B + E) <= bpow radix2 100 ->
    let q := 1 + H * rate L (B2R n) in
    let c := H / Rabs (B2R m) in
    let o := entity_step (N := F64 lm) w e h (AArr (A1 [fx; fy; fz])) in
    let o' := entity_step (N := XR Fin) wr er (Fin (B2R h)) (AArr (A1 (map Fin (map B2R [fx; fy; fz])))) in
    exists s' r', o_res o = Ok tt /\ o_res o' = Ok tt /\ e_state (o_entity o) = A1 s' /\ e_state (o_entity o') = A1 (map Fin r') /\
      length s' = 6%nat /\ tracks_scaled L (q * E + (bpow radix2 (-48) * (q * (B + E) + c) + bpow radix2 (-700))) s' r'.
  Proof.
    intros Dd Dr Sa C1 C2 C1r C2r Fm Hm Wn Wh Hh Fu HL Es Er Ls Tr PE Bd Cap q c o o'.
    destruct s as [|x [|y [|z [|vx [|vy [|vz [|? ?]]]]]]]; try discriminate. clear Ls.
    destruct Tr as [T1 T2]. destruct Bd as [B1 B2]. unfold tracks in T1, T2.
    destruct r as [|X [|Y [|Z [|VX [|VY [|VZ [|? ?]]]]]]]; cbn [firstn skipn] in T1, T2, B1, B2;
      repeat match goal with H : Forall2 _ (_ :: _) _ |- _ => inversion H; clear H; subst | H : Forall2 _ [] _ |- _ => inversion H; clear H; subst end.
    repeat match goal with H : Forall _ (_ :: _) |- _ => inversion H; clear H; subst | H : Forall _ [] |- _ => clear H end.
    repeat match goal with H : is_finite _ = true /\ _ |- _ => destruct H end.
    assert (Wi : forall (a : f64) t, is_finite a = true -> Rabs (B2R a - t) <= L * E -> Rabs t <= L * B -> within 100 a /\ Rabs (B2R a) <= L * (B + E)).
    { intros a t Fa Ha Ht. assert (Rabs (B2R a) <= L * (B + E)).
      { replace (B2R a) with (t + (B2R a - t)) by ring. eapply Rle_trans; [apply Rabs_triang|]. lra. }
      split; [split; [exact Fa|lra]|assumption]. }
    assert (Wv : forall (a : f64) t, is_finite a = true -> Rabs (B2R a - t) <= E -> Rabs t <= B -> within 100 a /\ Rabs (B2R a) <= B + E).
    { intros a t Fa Ha Ht. assert (Rabs (B2R a) <= B + E).
      { replace (B2R a) with (t + (B2R a - t)) by ring. eapply Rle_trans; [apply Rabs_triang|]. lra. }
      pose proof (Rabs_pos (B2R a)). assert (1 * (B + E) <= L * (B + E)) by (apply Rmult_le_compat_r; lra).
      split; [split; [exact Fa|lra]|assumption]. }
    destruct (Wi x X) as [Wx Bx]; auto. destruct (Wi y Y) as [Wy By]; auto. destruct (Wi z Z) as [Wz Bz]; auto.
    destruct (Wv vx VX) as [Wvx Bvx]; auto. destruct (Wv vy VY) as [Wvy Bvy]; auto. destruct (Wv vz VZ) as [Wvz Bvz]; auto.
    clear Wi Wv.
    destruct (cwh_round lm w e m n samples h x y z vx vy vz fx fy fz Dd Sa C1 C2 Fm Hm Wn Wh) as (x' & y' & z' & vx' & vy' & vz' & O1 & O2 & Ag);
      [repeat (apply Forall_cons; [assumption|]); apply Forall_nil|repeat (apply Forall_cons; [assumption|]); apply Forall_nil|exact Es|].
    assert (Nz : B2R m <> 0).
    { intros Q. rewrite Q, Rabs_R0 in Hm. pose proof (bpow_gt_0 radix2 (-100)). lra. }
    destruct (exact_step wr er (B2R m) (B2R n) samples (B2R h) X Y Z VX VY VZ (B2R fx) (B2R fy) (B2R fz) Dr Sa Nz C1r C2r Er) as [P1 P2].
    set (M := B2R m) in *. set (N := B2R n) in *. set (h' := B2R h) in *.
    set (u := clipR (-1) 1 (B2R fx)) in *. set (v := clipR (-1) 1 (B2R fy)) in *. set (t := clipR (-1) 1 (B2R fz)) in *.
    exists [x'; y'; z'; vx'; vy'; vz'], [X + h' * VX; Y + h' * VY; Z + h' * VZ; VX + h' * (3 * N ^ 2 * X + 2 * N * VY + u / M);
      VY + h' * (- 2 * N * VX + v / M); VZ + h' * (- N ^ 2 * Z + t / M)].
    split; [exact O1|]. split; [exact P1|]. split; [exact O2|]. split; [exact P2|]. split; [reflexivity|].
    unfold cwh_agrees in Ag. cbn [map] in Ag. fold M N h' u v t in Ag. destruct Ag as (A1 & A2 & A3 & A4 & A5 & A6).
    assert (M0 : 0 < Rabs M) by (apply Rabs_pos_lt; exact Nz).
    assert (Mi : 0 < / Rabs M) by (apply Rinv_0_lt_compat; exact M0).
    set (S := B + E) in *. set (k := rate L N) in *.
    assert (Li : 0 < / L) by (apply Rinv_0_lt_compat; lra). assert (LL : / L * L = 1) by (apply Rinv_l; lra).
    assert (N0 : 0 <= N ^ 2) by nra. pose proof (Rabs_pos N) as N1.
    assert (S0 : 0 <= S) by (eapply Rle_trans; [apply Rabs_pos|exact Bvx]).
    assert (N2 : 0 <= N ^ 2 * L) by (apply Rmult_le_pos; lra).
    assert (k0 : 0 <= k) by (unfold k; lra).
    assert (NS : 0 <= N ^ 2 * L * S) by (apply Rmult_le_pos; assumption). assert (NS' : 0 <= Rabs N * S) by (apply Rmult_le_pos; assumption).
    assert (NE : 0 <= N ^ 2 * L * E) by (apply Rmult_le_pos; assumption). assert (NE' : 0 <= Rabs N * E) by (apply Rmult_le_pos; assumption).
    assert (IS : 0 <= / L * S) by (apply Rmult_le_pos; lra). assert (IE : 0 <= / L * E) by (apply Rmult_le_pos; lra).
    pose proof (Rabs_pos h') as h0. assert (hH : 0 <= Rabs h' <= H) by (split; [exact h0|exact Hh]).
    assert (kp : forall d, 0 <= d -> d <= k * (L * d)).
    { intros d Hd. replace (k * (L * d)) with (/ L * L * d + (N ^ 2 * L * (3 * (L * d)) + Rabs N * (2 * (L * d)))) by (unfold k; ring). rewrite LL.
      assert (0 <= L * d) by (apply Rmult_le_pos; lra).
      assert (0 <= N ^ 2 * L * (3 * (L * d))) by (apply Rmult_le_pos; lra). assert (0 <= Rabs N * (2 * (L * d))) by (apply Rmult_le_pos; lra). lra. }
    pose proof (kp S S0) as kS. pose proof (kp E PE) as kE.
    assert (LM : 0 <= L * / Rabs M) by (apply Rmult_le_pos; lra).
    assert (Uv : forall a, Rabs a <= 1 -> 0 <= Rabs a / Rabs M <= / Rabs M).
    { intros a Ha. pose proof (Rabs_pos a). unfold Rdiv. split; [apply Rmult_le_pos; lra|].
      rewrite <- (Rmult_1_l (/ Rabs M)) at 2. apply Rmult_le_compat_r; lra. }
    pose proof (Uv u (clip_1 _)) as Uu. pose proof (Uv v (clip_1 _)) as Uy. pose proof (Uv t (clip_1 _)) as Ut.
    assert (Q2 : forall a b, Rabs b <= L * S -> 0 <= a * N ^ 2 -> 0 <= a * N ^ 2 * Rabs b <= a * N ^ 2 * (L * S)).
    { intros a b Hb Ha. pose proof (Rabs_pos b). split; [apply Rmult_le_pos; lra|apply Rmult_le_compat_l; lra]. }
    assert (Q1 : forall b, Rabs b <= S -> 0 <= 2 * Rabs N * Rabs b <= 2 * Rabs N * S).
    { intros b Hb. pose proof (Rabs_pos b). split; [repeat apply Rmult_le_pos; lra|apply Rmult_le_compat_l; lra]. }
    assert (D2 : forall b, Rabs b <= L * E -> Rabs (N ^ 2 * b) <= N ^ 2 * L * E).
    { intros b Hb. rewrite Rabs_mult, (Rabs_right (N ^ 2)), Rmult_assoc by lra. apply Rmult_le_compat_l; lra. }
    assert (D1 : forall b, Rabs b <= E -> Rabs (2 * N * b) <= 2 * Rabs N * E).
    { intros b Hb. rewrite !Rabs_mult, (Rabs_right 2) by lra. apply Rmult_le_compat_l; lra. }
    assert (D3 : forall b, Rabs b <= L * E -> Rabs (3 * N ^ 2 * b) <= 3 * N ^ 2 * (L * E)).
    { intros b Hb. rewrite !Rabs_mult, (Rabs_right 3), (Rabs_right (N ^ 2)) by lra. apply Rmult_le_compat_l; lra. }
    assert (PS : forall a b, Rabs a <= L * S -> Rabs b <= S -> Rabs a + Rabs h' * Rabs b <= L * (q * S + c)).
    { intros a b Ha Hb. replace (L * (q * S + c)) with ((1 + H * k) * (L * S) + H * (L * / Rabs M)) by (unfold q, c, Rdiv; ring).
      apply comp_size; auto using Rabs_pos. lra. }
    assert (PD : forall t r a b, t - r = a + h' * b -> Rabs a <= L * E -> Rabs b <= E -> Rabs (t - r) <= L * (q * E)).
    { intros t1 r1 a b Eq Ha Hb. replace (L * (q * E)) with ((1 + H * k) * (L * E)) by (unfold q; ring).
      eapply comp_diff; [exact Eq|exact Ha|exact Hh|lra]. }
    split; cbn [firstn skipn]; repeat apply Forall2_cons; try apply Forall2_nil.
    - eapply scomp; [exact HL|exact A1|apply PS; assumption|].
      apply (PD _ _ (B2R x - X) (B2R vx - VX)); [ring|assumption|assumption].
    - eapply scomp; [exact HL|exact A2|apply PS; assumption|].
      apply (PD _ _ (B2R y - Y) (B2R vy - VY)); [ring|assumption|assumption].
    - eapply scomp; [exact HL|exact A3|apply PS; assumption|].
      apply (PD _ _ (B2R z - Z) (B2R vz - VZ)); [ring|assumption|assumption].
    - pose proof (Q2 3 (B2R x) Bx ltac:(lra)). pose proof (Q1 (B2R vy) Bvy). unfold q, c, Rdiv.
      eapply comp; [exact A4|fold S; apply comp_size; auto; [lra|unfold k; lra]|].
      eapply (comp_diff _ _ (B2R vx - VX) h' (3 * N ^ 2 * (B2R x - X) + 2 * N * (B2R vy - VY))); [unfold Rdiv; ring|assumption|exact Hh|].
      eapply Rle_trans; [apply Rabs_triang|]. pose proof (D3 (B2R x - X) ltac:(assumption)). pose proof (D1 (B2R vy - VY) ltac:(assumption)). unfold k; lra.
    - pose proof (Q1 (B2R vx) Bvx). unfold q, c, Rdiv.
      eapply comp; [exact A5|fold S; apply comp_size; auto; [lra|unfold k; lra]|].
      eapply (comp_diff _ _ (B2R vy - VY) h' (- (2 * N * (B2R vx - VX)))); [unfold Rdiv; ring|assumption|exact Hh|].
      rewrite Rabs_Ropp. pose proof (D1 (B2R vx - VX) ltac:(assumption)). unfold k; lra.
    - pose proof (Q2 1 (B2R z) Bz ltac:(lra)). unfold q, c, Rdiv.
      eapply comp; [exact A6|fold S; apply comp_size; auto; [lra|unfold k; lra]|].
      eapply (comp_diff _ _ (B2R vz - VZ) h' (- (N ^ 2 * (B2R z - Z)))); [unfold Rdiv; ring|assumption|exact Hh|].
      rewrite Rabs_Ropp. pose proof (D2 (B2R z - Z) ltac:(assumption)). unfold k; lra.
  Qed.

  Lemma rate_pos L n : 1 <= L -> 0 <= rate L n.
  Proof.
    intros HL. assert (0 < / L) by (apply Rinv_0_lt_compat; lra). pose proof (Rabs_pos n). assert (0 <= n ^ 2) by nra.
    assert (0 <= 3 * n ^ 2 * L) by (apply Rmult_le_pos; lra). lra.
  Qed.
  Lemma q_ge L n H : 1 <= L -> 0 <= H -> 1 <= 1 + H * rate L n.
  Proof. intros HL H0. pose proof (Rmult_le_pos _ _ H0 (rate_pos L n HL)). lra. Qed.
  Lemma c_ge (m : f64) H : bpow radix2 (-100) <= Rabs (B2R m) -> 0 <= H -> 0 <= H / Rabs (B2R m).
  Proof. intros Hm H0. unfold Rdiv. apply Rmult_le_pos; [exact H0|]. left. apply Rinv_0_lt_compat. pose proof (bpow_gt_0 radix2 (-100)). lra. Qed.

  Lemma run_scaled (w : world f64) (wr : world xr) (m n : f64) samples L H B :
    (samples <= 0)%Z -> is_finite m = true -> bpow radix2 (-100) <= Rabs (B2R m) -> within 50 n -> 1 <= L -> 0 <= H -> 0 <= B ->
    let q := 1 + H * rate L (B2R n) in
    let c := H / Rabs (B2R m) in
    forall acts k (e : entity f64) (er : entity xr) s r,
    cwh_dyn (N := F64 lm) m n samples "Euler" = Ok (e_dyn e) ->
    cwh_dyn (N := XR Fin) (Fin (B2R m)) (Fin (B2R n)) samples "Euler" = Ok (e_dyn er) ->
    e_cmin e = A0 (nZ (N := F64 lm) (-1)) -> e_cmax e = A0 (n1 (N := F64 lm)) ->
    e_cmin er = A0 (Fin (-1/1)) -> e_cmax er = A0 (Fin (1/1)) ->
    Forall (proper H) acts -> e_state e = A1 s -> e_state er = A1 (map Fin r) -> length s = 6%nat -> tracks_scaled L (err q B c k) s r ->
    stays_scaled wr er L B (actsR acts) -> L * (B + err q B c (k + length acts)) <= bpow radix2 100 ->
    exists e' er' s' r', run (N := F64 lm) w e (acts64 acts) = Ok e' /\ run (N := XR Fin) wr er (actsR acts) = Ok er' /\
      e_state e' = A1 s' /\ e_state er' = A1 (map Fin r') /\ tracks_scaled L (err q B c (k + length acts)) s' r'.
  Proof.
    intros Sa Fm Hm Wn HL H0 B0 q c.
    pose proof (q_ge L (B2R n) H HL H0 : 1 <= q) as Q1. pose proof (c_ge m H Hm H0 : 0 <= c) as c0.
    induction acts as [|[h u] acts IH]; intros k e er s r Dd Dr C1 C2 C1r C2r Pa Es Er Ls Tr St Cap.
    - exists e, er, s, r. cbn [length]. rewrite Nat.add_0_r. repeat split; auto; apply Tr.
    - inversion Pa as [|? ? (Wh & Hh & Lu & Fu) Pa']; subst. cbn [fst snd] in *.
      destruct u as [|fx [|fy [|fz [|? ?]]]]; try discriminate. cbn [length] in Cap.
      destruct (St 0%nat er eq_refl) as (r0 & Er0 & Bd). rewrite Er in Er0. injection Er0 as Er0.
      apply (map_inj_Fin r r0) in Er0. subst r0.
      assert (Ek : err q B c k <= err q B c (k + S (length acts))) by (apply err_mono; auto; lia).
      destruct (step_scaled w wr e er m n samples h s r fx fy fz L H B (err q B c k) Dd Dr Sa C1 C2 C1r C2r Fm Hm Wn Wh Hh Fu HL Es Er Ls Tr)
        as (s' & r' & O1 & O2 & S1 & S2 & L' & T').
      { apply err_pos; auto. } { exact Bd. } { eapply Rle_trans; [|exact Cap]. apply Rmult_le_compat_l; lra. }
      assert (G1 := entity_step_config (N := F64 lm) w e h (AArr (A1 [fx; fy; fz]))).
      assert (G2 := entity_step_config (N := XR Fin) wr er (Fin (B2R h)) (AArr (A1 (map Fin (map B2R [fx; fy; fz]))))).
      destruct G1 as (K1 & _ & K2 & K3 & _). destruct G2 as (J1 & _ & J2 & J3 & _).
      destruct (IH (S k) _ _ s' r' ltac:(rewrite K1; exact Dd) ltac:(rewrite J1; exact Dr) ltac:(rewrite K2; exact C1) ltac:(rewrite K3; exact C2)
        ltac:(rewrite J2; exact C1r) ltac:(rewrite J3; exact C2r) Pa' S1 S2 L') as (e' & er' & s2 & r2 & X1 & X2 & X3 & X4 & X5).
      { exact T'. }
      { intros j e' Rn. apply (St (S j) e'). cbn [actsR map firstn run fst snd]. cbn [map] in O2. rewrite O2. cbn [bind]. exact Rn. }
      { replace (S k + length acts)%nat with (k + S (length acts))%nat by lia. exact Cap. }
      exists e', er', s2, r2. cbn [acts64 actsR map run fst snd]. cbn [map] in O2. rewrite O1, O2. cbn [bind].
      replace (k + length ((h, [fx; fy; fz]) :: acts))%nat with (S k + length acts)%nat by (cbn [length]; lia).
      repeat split; auto; apply X5.
  Qed.

  (** Sizes of exact runs. *)
  Lemma sized_mono L B B' r : 1 <= L -> B <= B' -> sized L B r -> sized L B' r.
  Proof.
    intros HL HB [A C]. assert (L * B <= L * B') by (apply Rmult_le_compat_l; lra).
    split; [eapply Forall_impl; [|exact A]|eapply Forall_impl; [|exact C]]; cbv beta; intros; lra.
  Qed.

  Lemma exact_stays (wr : world xr) M N samples L H : (samples <= 0)%Z -> M <> 0 -> 1 <= L -> 0 <= H ->
    let q := 1 + H * rate L N in
    let c := H / Rabs M in
    forall acts (er : entity xr) r W,
    cwh_dyn (N := XR Fin) (Fin M) (Fin N) samples "Euler" = Ok (e_dyn er) ->
    e_cmin er = A0 (Fin (-1/1)) -> e_cmax er = A0 (Fin (1/1)) -> Forall (proper H) acts ->
    e_state er = A1 (map Fin r) -> length r = 6%nat -> 0 <= W -> sized L W r ->
    stays_scaled wr er L (q ^ length acts * (W + INR (length acts) * c)) (actsR acts).
  Proof.
    intros Sa Nz HL H0 q c.
    assert (M0 : 0 < Rabs M) by (apply Rabs_pos_lt; exact Nz). assert (Mi : 0 < / Rabs M) by (apply Rinv_0_lt_compat; exact M0).
    pose proof (q_ge L N H HL H0 : 1 <= q) as Q1. assert (c0 : 0 <= c) by (unfold c, Rdiv; apply Rmult_le_pos; lra).
    induction acts as [|[h u] acts IH]; intros er r W Dr C1 C2 Pa Er Lr W0 Sz.
    - intros j e' Rn. cbn [actsR map] in Rn. rewrite firstn_nil in Rn. injection Rn as <-. exists r. split; [exact Er|].
      eapply sized_mono; [exact HL| |exact Sz]. cbn. lra.
    - inversion Pa as [|? ? (Wh & Hh & Lu & Fu) Pa']; subst. cbn [fst snd] in *.
      destruct u as [|fx [|fy [|fz [|? ?]]]]; try discriminate.
      assert (P1 : 1 <= q ^ length acts) by (apply pow_R1_Rle; exact Q1).
      assert (I0 : 0 <= INR (length acts)) by apply pos_INR. assert (Ic : 0 <= INR (length acts) * c) by (apply Rmult_le_pos; assumption).
      intros [|j] e' Rn.
      + injection Rn as <-. exists r. split; [exact Er|]. eapply sized_mono; [exact HL| |exact Sz]. cbn [length pow]. rewrite S_INR.
        assert (1 <= q * q ^ length acts) by nra.
        assert (1 * (W + (INR (length acts) + 1) * c) <= q * q ^ length acts * (W + (INR (length acts) + 1) * c)) by (apply Rmult_le_compat_r; lra). lra.
      + cbn [actsR map firstn run fst snd] in Rn.
        destruct r as [|X [|Y [|Z [|VX [|VY [|VZ [|? ?]]]]]]]; try discriminate.
        destruct (exact_step wr er M N samples (B2R h) X Y Z VX VY VZ (B2R fx) (B2R fy) (B2R fz) Dr Sa Nz C1 C2 Er) as [R1 R2].
        cbn [map] in R1. change (map Fin [B2R fx; B2R fy; B2R fz]) with [Fin (B2R fx); Fin (B2R fy); Fin (B2R fz)] in R2. rewrite R1 in Rn. cbn [bind] in Rn.
        assert (G2 := entity_step_config (N := XR Fin) wr er (Fin (B2R h)) (AArr (A1 [Fin (B2R fx); Fin (B2R fy); Fin (B2R fz)]))).
        destruct G2 as (J1 & _ & J2 & J3 & _).
        edestruct (IH _ _ (q * W + c) ltac:(rewrite J1; exact Dr) ltac:(rewrite J2; exact C1) ltac:(rewrite J3; exact C2) Pa' R2 eq_refl) as (r' & E1 & E2).
        3: exact Rn.
        { assert (0 <= q * W) by (apply Rmult_le_pos; lra). lra. }
        2:{ exists r'. split; [exact E1|]. eapply sized_mono; [exact HL| |exact E2]. cbn [length pow]. rewrite S_INR.
            set (p := q ^ length acts) in *. replace (q * p * (W + (INR (length acts) + 1) * c)) with (p * (q * (W + (INR (length acts) + 1) * c))) by ring.
            apply Rmult_le_compat_l; [lra|]. assert (1 * ((INR (length acts) + 1) * c) <= q * ((INR (length acts) + 1) * c)) by (apply Rmult_le_compat_r; lra). lra. }
        clear IH Rn R1 R2 J1 J2 J3.
        set (u := clipR (-1) 1 (B2R fx)) in *. set (v := clipR (-1) 1 (B2R fy)) in *. set (t := clipR (-1) 1 (B2R fz)) in *.
        set (h' := B2R h) in *.
        destruct Sz as [S1 S2]. cbn [firstn skipn] in S1, S2.
        repeat match goal with H : Forall _ (_ :: _) |- _ => inversion H; clear H; subst | H : Forall _ [] |- _ => clear H end.
        assert (Li : 0 < / L) by (apply Rinv_0_lt_compat; lra). assert (LL : / L * L = 1) by (apply Rinv_l; lra).
        assert (N0 : 0 <= N ^ 2) by nra. pose proof (Rabs_pos N) as N1.
        assert (N2 : 0 <= N ^ 2 * L) by (apply Rmult_le_pos; lra). assert (N3 : 0 <= N ^ 2 * L * W) by (apply Rmult_le_pos; lra).
        assert (N4 : 0 <= Rabs N * W) by (apply Rmult_le_pos; lra). assert (N5 : 0 <= / L * W) by (apply Rmult_le_pos; lra).
        set (k := rate L N) in *.
        assert (kp : W <= k * (L * W)).
        { replace (k * (L * W)) with (/ L * L * W + (N ^ 2 * L * W * (3 * L) + Rabs N * W * (2 * L))) by (unfold k; ring). rewrite LL.
          assert (0 <= N ^ 2 * L * W * (3 * L)) by (apply Rmult_le_pos; lra). assert (0 <= Rabs N * W * (2 * L)) by (apply Rmult_le_pos; lra). lra. }
        assert (LM : 0 <= L * / Rabs M) by (apply Rmult_le_pos; lra).
        assert (Uv : forall a, Rabs a <= 1 -> Rabs (a / M) <= / Rabs M).
        { intros a Ha. pose proof (Rabs_pos a). unfold Rdiv. rewrite Rabs_mult, Rabs_inv.
          rewrite <- (Rmult_1_l (/ Rabs M)) at 2. apply Rmult_le_compat_r; lra. }
        pose proof (Uv u (clip_1 _)) as Uu. pose proof (Uv v (clip_1 _)) as Uy. pose proof (Uv t (clip_1 _)) as Ut.
        assert (One : forall a b S d, Rabs a <= S -> Rabs b <= k * S + d -> Rabs (a + h' * b) <= (1 + H * k) * S + H * d).
        { intros a b S d Ha Hb. eapply Rle_trans; [apply Rabs_triang|]. rewrite Rabs_mult. apply comp_size; auto using Rabs_pos. }
        assert (Pos : forall a b, Rabs a <= L * W -> Rabs b <= W -> Rabs (a + h' * b) <= L * (q * W + c)).
        { intros a b Ha Hb. replace (L * (q * W + c)) with ((1 + H * k) * (L * W) + H * (L * / Rabs M)) by (unfold q, c, Rdiv; ring).
          apply One; [exact Ha|lra]. }
        assert (Vel : forall a b, Rabs a <= W -> Rabs b <= k * W + / Rabs M -> Rabs (a + h' * b) <= q * W + c).
        { intros a b Ha Hb. unfold q, c, Rdiv. apply One; assumption. }
        split; cbn [firstn skipn]; repeat apply Forall_cons; try apply Forall_nil.
        * apply Pos; assumption.
        * apply Pos; assumption.
        * apply Pos; assumption.
        * apply Vel; [assumption|]. eapply Rle_trans; [apply Rabs_triang|]. eapply Rle_trans; [apply Rplus_le_compat_r; apply Rabs_triang|].
          rewrite !Rabs_mult, (Rabs_right 3), (Rabs_right 2), (Rabs_right (N ^ 2)) by lra.
          assert (3 * N ^ 2 * Rabs X <= 3 * N ^ 2 * (L * W)) by (apply Rmult_le_compat_l; lra).
          assert (2 * Rabs N * Rabs VY <= 2 * Rabs N * W) by (apply Rmult_le_compat_l; lra). unfold k. lra.
        * apply Vel; [assumption|]. eapply Rle_trans; [apply Rabs_triang|].
          replace (- 2 * N * VX) with (- (2 * N * VX)) by ring. rewrite Rabs_Ropp, !Rabs_mult, (Rabs_right 2) by lra.
          assert (2 * Rabs N * Rabs VX <= 2 * Rabs N * W) by (apply Rmult_le_compat_l; lra). unfold k. lra.
        * apply Vel; [assumption|]. eapply Rle_trans; [apply Rabs_triang|].
          replace (- N ^ 2 * Z) with (- (N ^ 2 * Z)) by ring. rewrite Rabs_Ropp, !Rabs_mult, (Rabs_right (N ^ 2)) by lra.
          assert (N ^ 2 * Rabs Z <= N ^ 2 * (L * W)) by (apply Rmult_le_compat_l; lra). unfold k. lra.
  Qed.

  Lemma tracks_scaled_mono L E E' s r : 1 <= L -> E <= E' -> tracks_scaled L E s r -> tracks_scaled L E' s r.
  Proof.
    intros HL H [A C]. assert (L * E <= L * E') by (apply Rmult_le_compat_l; lra).
    split; eapply tracks_mono; eauto.
  Qed.

  Lemma cwh_long (w : world f64) (wr : world xr) (m n : f64) samples (x y z vx vy vz : f64) L H W acts e er :
    (samples <= 0)%Z -> is_finite m = true -> bpow radix2 (-100) <= Rabs (B2R m) -> within 50 n -> 1 <= L -> 0 <= H -> 0 <= W ->
    let f := fun a : f64 => nf32 (Num := F64 lm) a in
    let g := fun a : f64 => Fin (B2R (f a)) in
    let q := 1 + H * rate L (B2R n) in
    let c := H / Rabs (B2R m) in
    let k := length acts in
    let B := q ^ k * (W + INR k * c) in
    cwh_spacecraft (N := F64 lm) m n samples "Euler" x y z vx vy vz = Ok e ->
    cwh_spacecraft (N := XR Fin) (Fin (B2R m)) (Fin (B2R n)) samples "Euler" (g x) (g y) (g z) (g vx) (g vy) (g vz) = Ok er ->
    Forall (fun a => is_finite (f a) = true) [x; y; z; vx; vy; vz] ->
    sized L W (map (fun a => B2R (f a)) [x; y; z; vx; vy; vz]) ->
    Forall (proper H) acts -> L * (B + drift q B c k) <= bpow radix2 100 ->
    exists e' er' s' r', run (N := F64 lm) w e (acts64 acts) = Ok e' /\ run (N := XR Fin) wr er (actsR acts) = Ok er' /\
      e_state e' = A1 s' /\ e_state er' = A1 (map Fin r') /\ tracks_scaled L (drift q B c k) s' r'.
  Proof.
    intros Sa Fm Hm Wn HL H0 W0 f g q c k B Ee Er F0 Sz Pa Cap.
    pose proof (q_ge L (B2R n) H HL H0 : 1 <= q) as Q1. pose proof (c_ge m H Hm H0 : 0 <= c) as c0.
    destruct (cwh_spacecraft_dyn Fin _ _ _ _ _ _ _ _ _ _ _ Er) as (Dr & _ & C1 & C2 & _).
    assert (B0 : 0 <= B).
    { unfold B. pose proof (pos_INR k). assert (0 <= INR k * c) by (apply Rmult_le_pos; assumption).
      apply Rmult_le_pos; [apply pow_le; lra|lra]. }
    pose proof (err_drift q B c k Q1 B0 c0) as Ed.
    assert (Nz : B2R m <> 0).
    { intros Q. rewrite Q, Rabs_R0 in Hm. pose proof (bpow_gt_0 radix2 (-100)). lra. }
    assert (Sr : e_state er = A1 (map Fin (map (fun a => B2R (f a)) [x; y; z; vx; vy; vz]))).
    { unfold cwh_spacecraft in Er. destruct (cwh_dyn (N := XR Fin) _ _ _ _) as [d|]; [|discriminate]. cbn [bind] in Er. injection Er as <-. reflexivity. }
    pose proof (exact_stays wr (B2R m) (B2R n) samples L H Sa Nz HL H0 acts er _ W Dr C1 C2 Pa Sr eq_refl W0 Sz) as St.
    fold q c k B in St.
    unfold cwh_spacecraft in Ee. destruct (cwh_dyn (N := F64 lm) m n samples "Euler") as [d|] eqn:Dd; [|discriminate].
    cbn [bind] in Ee.
    assert (De : e_dyn e = d /\ e_cmin e = A0 (nZ (N := F64 lm) (-1)) /\ e_cmax e = A0 (n1 (N := F64 lm)) /\ e_state e = A1 (map f [x; y; z; vx; vy; vz]))
      by (injection Ee as <-; repeat split).
    destruct De as (De & K1 & K2 & K3). rewrite <- De in Dd.
    destruct (run_scaled w wr m n samples L H B Sa Fm Hm Wn HL H0 B0 acts 0 e er _ _ Dd Dr K1 K2 C1 C2 Pa K3 Sr eq_refl)
      as (e' & er' & s' & r' & X1 & X2 & X3 & X4 & X5).
    - fold q c. cbn [err].
      repeat match goal with H : Forall _ (_ :: _) |- _ => inversion H; clear H; subst end.
      assert (T : forall a, is_finite (f a) = true -> is_finite (f a) = true /\ Rabs (B2R (f a) - B2R (f a)) <= 0).
      { intros a Ha. split; [exact Ha|]. rewrite Rminus_eq_0, Rabs_R0. lra. }
      split; cbn [map firstn skipn]; rewrite ?Rmult_0_r; unfold tracks; repeat apply Forall2_cons; try apply Forall2_nil; apply T; assumption.
    - exact St.
    - fold q c k. cbn [Nat.add]. eapply Rle_trans; [|exact Cap]. apply Rmult_le_compat_l; lra.
    - exists e', er', s', r'. repeat split; auto; eapply (tracks_scaled_mono L _ _ s' r' HL Ed); exact X5.
  Qed.
End F.
