(** Binary64 runs of the CWH spacecraft against exact runs (C106). *)
From Coq Require Import String ZArith Reals Bool List Lra Lia.
From Flocq Require Import Core.Core IEEE754.BinarySingleNaN.
From Verif Require Import PyBase Num Arr BaseModel Cwh Spec SpecBase SpecCwh NumOrdLemmas ArrLemmas BaseLemmas BaseLemmas2 BaseLemmas3 XReal XTac RkLemmas CwhLemmas LimLemmas
  Float64 F64Wrap F64Bound F64Err SpecRound RoundCwh.
Import List ListNotations.
Local Open Scope R_scope.

(** Recursive error bound after [k] steps: earlier errors grow by the factor [q], every step adds its rounding
    errors; [B] bounds the exact states, [c] the velocity changes by thrust. *)
Fixpoint err (q B c : R) (k : nat) : R :=
  match k with
  | O => 0
  | S k' => q * err q B c k' + (bpow radix2 (-48) * (q * (B + err q B c k') + c) + bpow radix2 (-700))
  end.

Lemma err_pos q B c k : 1 <= q -> 0 <= B -> 0 <= c -> 0 <= err q B c k.
Proof.
  intros Q HB Hc. induction k; cbn [err]; [lra|]. pose proof (bpow_gt_0 radix2 (-48)). pose proof (bpow_gt_0 radix2 (-700)).
  assert (0 <= q * err q B c k) by (apply Rmult_le_pos; lra). assert (0 <= q * (B + err q B c k)) by (apply Rmult_le_pos; lra).
  assert (0 <= bpow radix2 (-48) * (q * (B + err q B c k) + c)) by (apply Rmult_le_pos; lra). lra.
Qed.
Lemma err_S q B c k : 1 <= q -> 0 <= B -> 0 <= c -> err q B c k <= err q B c (S k).
Proof.
  intros Q HB Hc. cbn [err]. pose proof (err_pos q B c k Q HB Hc). pose proof (bpow_gt_0 radix2 (-48)). pose proof (bpow_gt_0 radix2 (-700)).
  assert (err q B c k <= q * err q B c k) by nra. assert (0 <= q * (B + err q B c k)) by (apply Rmult_le_pos; lra).
  assert (0 <= bpow radix2 (-48) * (q * (B + err q B c k) + c)) by (apply Rmult_le_pos; lra). lra.
Qed.
Lemma err_mono q B c j k : 1 <= q -> 0 <= B -> 0 <= c -> (j <= k)%nat -> err q B c j <= err q B c k.
Proof. intros Q HB Hc H. induction H; [lra|]. eapply Rle_trans; [exact IHle|]. apply err_S; auto. Qed.

Lemma err_drift q B c k : 1 <= q -> 0 <= B -> 0 <= c -> err q B c k <= drift q B c k.
Proof.
  intros Q HB Hc. unfold drift. set (p := bpow radix2 (-48)). set (d := p * (q * B + c) + bpow radix2 (-700)).
  assert (p0 : 0 < p) by apply bpow_gt_0. assert (0 <= q * B) by (apply Rmult_le_pos; lra).
  assert (d0 : 0 <= d). { unfold d. pose proof (bpow_gt_0 radix2 (-700)). assert (0 <= p * (q * B + c)) by (apply Rmult_le_pos; lra). lra. }
  set (g := q * (1 + p)). assert (g1 : 1 <= g) by (unfold g; nra).
  induction k as [|k IH]; [cbn; lra|].
  assert (R : err q B c (S k) = g * err q B c k + d) by (cbn [err]; unfold g, d, p; ring).
  rewrite R, S_INR. assert (G : 1 <= g ^ S k) by (apply pow_R1_Rle; exact g1).
  assert (g * err q B c k <= g * (INR k * g ^ k * d)) by (apply Rmult_le_compat_l; lra).
  replace (g * (INR k * g ^ k * d)) with (INR k * g ^ S k * d) in * by (cbn [pow]; ring).
  assert (1 * d <= g ^ S k * d) by (apply Rmult_le_compat_r; assumption). lra.
Qed.

(** One component: a computed number close to an expression of computed inputs is close to the exact expression. *)
Lemma comp (a : f64) t g r q B c E : agrees a t g -> g <= q * (B + E) + c -> Rabs (t - r) <= q * E ->
  is_finite a = true /\ Rabs (B2R a - r) <= q * E + (bpow radix2 (-48) * (q * (B + E) + c) + bpow radix2 (-700)).
Proof.
  intros [F A] G D. split; [exact F|]. pose proof (bpow_gt_0 radix2 (-48)).
  replace (B2R a - r) with ((t - r) + (B2R a - t)) by ring. eapply Rle_trans; [apply Rabs_triang|].
  assert (bpow radix2 (-48) * g <= bpow radix2 (-48) * (q * (B + E) + c)) by (apply Rmult_le_compat_l; lra). lra.
Qed.

Lemma comp_size a hh b H k S d : a <= S -> 0 <= hh <= H -> 0 <= b -> b <= k * S + d -> a + hh * b <= (1 + H * k) * S + H * d.
Proof.
  intros A HH B0 Bd. assert (hh * b <= H * (k * S + d)) by (apply Rmult_le_compat; lra). lra.
Qed.
Lemma comp_diff t r a h b H k E : t - r = a + h * b -> Rabs a <= E -> Rabs h <= H -> Rabs b <= k * E ->
  Rabs (t - r) <= (1 + H * k) * E.
Proof.
  intros -> A HH Bd. eapply Rle_trans; [apply Rabs_triang|]. rewrite Rabs_mult.
  assert (Rabs h * Rabs b <= H * (k * E)) by (apply Rmult_le_compat; auto using Rabs_pos). lra.
Qed.

Lemma map_inj_Fin r r0 : map Fin r = map Fin r0 -> r = r0.
Proof. revert r0. induction r as [|a r IH]; intros [|b r0] E; try discriminate; [reflexivity|]. injection E as -> E. f_equal. auto. Qed.

Section F.
  Variable lm : libm.

  Lemma step_tracks (w : world f64) (wr : world xr) (e : entity f64) (er : entity xr) (m n : f64) samples (h : f64) s r (fx fy fz : f64) H B E :
    cwh_dyn (N := F64 lm) m n samples "Euler" = Ok (e_dyn e) ->
    cwh_dyn (N := XR Fin) (Fin (B2R m)) (Fin (B2R n)) samples "Euler" = Ok (e_dyn er) -> (samples <= 0)%Z ->
    e_cmin e = A0 (nZ (N := F64 lm) (-1)) -> e_cmax e = A0 (n1 (N := F64 lm)) ->
    e_cmin er = A0 (Fin (-1/1)) -> e_cmax er = A0 (Fin (1/1)) ->
    is_finite m = true -> bpow radix2 (-100) <= Rabs (B2R m) -> within 50 n -> within 100 h -> Rabs (B2R h) <= H ->
    Forall (fun f : f64 => is_finite f = true) [fx; fy; fz] ->
    e_state e = A1 s -> e_state er = A1 (map Fin r) -> length s = 6%nat -> tracks E s r -> 0 <= E ->
    Forall (fun t => Rabs t <= B) r -> B + E <= bpow radix2 100 ->
    let q := 1 + H * (1 + 3 * B2R n ^ 2 + 2 * Rabs (B2R n)) in
    let c := H / Rabs (B2R m) in
    let o := entity_step (N := F64 lm) w e h (AArr (A1 [fx; fy; fz])) in
    let o' := entity_step (N := XR Fin) wr er (Fin (B2R h)) (AArr (A1 (map Fin (map B2R [fx; fy; fz])))) in
    exists s' r', o_res o = Ok tt /\ o_res o' = Ok tt /\ e_state (o_entity o) = A1 s' /\ e_state (o_entity o') = A1 (map Fin r') /\
      length s' = 6%nat /\ tracks (q * E + (bpow radix2 (-48) * (q * (B + E) + c) + bpow radix2 (-700))) s' r'.
  Proof.
    intros Dd Dr Sa C1 C2 C1r C2r Fm Hm Wn Wh Hh Fu Es Er Ls Tr PE Bd Cap q c o o'.
    destruct s as [|x [|y [|z [|vx [|vy [|vz [|? ?]]]]]]]; try discriminate. clear Ls.
    unfold tracks in Tr.
    destruct r as [|X [|Y [|Z [|VX [|VY [|VZ [|? ?]]]]]]];
      repeat match goal with H : Forall2 _ (_ :: _) _ |- _ => inversion H; clear H; subst | H : Forall2 _ [] _ |- _ => inversion H; clear H; subst end.
    repeat match goal with H : Forall _ (_ :: _) |- _ => inversion H; clear H; subst | H : Forall _ [] |- _ => clear H end.
    repeat match goal with H : is_finite _ = true /\ _ |- _ => destruct H end.
    assert (Wi : forall (a : f64) t, is_finite a = true -> Rabs (B2R a - t) <= E -> Rabs t <= B -> within 100 a /\ Rabs (B2R a) <= B + E).
    { intros a t Fa Ha Ht. assert (Rabs (B2R a) <= B + E).
      { replace (B2R a) with (t + (B2R a - t)) by ring. eapply Rle_trans; [apply Rabs_triang|]. lra. }
      split; [split; [exact Fa|lra]|assumption]. }
    destruct (Wi x X) as [Wx Bx]; auto. destruct (Wi y Y) as [Wy By]; auto. destruct (Wi z Z) as [Wz Bz]; auto.
    destruct (Wi vx VX) as [Wvx Bvx]; auto. destruct (Wi vy VY) as [Wvy Bvy]; auto. destruct (Wi vz VZ) as [Wvz Bvz]; auto.
    destruct (cwh_round lm w e m n samples h x y z vx vy vz fx fy fz Dd Sa C1 C2 Fm Hm Wn Wh) as (x' & y' & z' & vx' & vy' & vz' & O1 & O2 & Ag);
      [repeat (apply Forall_cons; [assumption|]); apply Forall_nil|repeat (apply Forall_cons; [assumption|]); apply Forall_nil|exact Es|].
    assert (Nz : B2R m <> 0).
    { intros Q. rewrite Q, Rabs_R0 in Hm. pose proof (bpow_gt_0 radix2 (-100)). lra. }
    set (M := B2R m) in *. set (N := B2R n) in *. set (h' := B2R h) in *.
    set (u := clipR (-1) 1 (B2R fx)) in *. set (v := clipR (-1) 1 (B2R fy)) in *. set (t := clipR (-1) 1 (B2R fz)) in *.
    assert (Ub : forall k, Rabs (clipR (-1) 1 k) <= 1).
    { intros k. unfold clipR, Rmin, Rmax. repeat destruct (Rle_dec _ _); apply Rabs_le; lra. }
    assert (FF : forall a : R, free (N := XR Fin) (Fin a)) by (intros a; repeat split; try reflexivity; apply clip1_none).
    edestruct (cwh_euler_gen (N := XR Fin) wr er (Fin M) (Fin N) samples (Fin h') (map Fin [X; Y; Z; VX; VY; VZ]) (map Fin (map B2R [fx; fy; fz])))
      as (P1 & P2).
    1: exact Dr. 1: exact Sa. 1: exact C1r. 1: exact C2r. 1: exact Er.
    2:{ cbn [map]. change (n1 (N := XR Fin)) with (Fin (1/1)). change (nZ (N := XR Fin) (-1)) with (Fin (-1/1)).
        replace (Fin (-1/1)) with (Fin (-1)) by (f_equal; lra). replace (Fin (1/1)) with (Fin 1) by (f_equal; lra).
        rewrite !(clip1_Fin Fin). apply (cwh_raw Fin M N samples "Euler" (e_dyn er) Nz Dr). }
    1: reflexivity. 1: repeat constructor; apply FF. 1: repeat constructor; apply FF.
    { cbn [map zipw nadd nmul XR xadd xmul]. repeat constructor; apply FF. }
    fold u v t in P2. cbn [map zipw nadd nmul XR xadd xmul] in P2.
    exists [x'; y'; z'; vx'; vy'; vz'], [X + h' * VX; Y + h' * VY; Z + h' * VZ; VX + h' * (3 * N ^ 2 * X + 2 * N * VY + u / M);
      VY + h' * (- 2 * N * VX + v / M); VZ + h' * (- N ^ 2 * Z + t / M)].
    split; [exact O1|]. split; [exact P1|]. split; [exact O2|]. split; [exact P2|]. split; [reflexivity|].
    unfold cwh_agrees in Ag. cbn [map] in Ag. fold M N h' u v t in Ag. destruct Ag as (A1 & A2 & A3 & A4 & A5 & A6).
    assert (M0 : 0 < Rabs M) by (apply Rabs_pos_lt; exact Nz).
    assert (Mi : 0 < / Rabs M) by (apply Rinv_0_lt_compat; exact M0).
    set (S := B + E) in *. set (k := 1 + 3 * N ^ 2 + 2 * Rabs N) in *.
    assert (N0 : 0 <= N ^ 2) by nra. pose proof (Rabs_pos N) as N1.
    assert (S0 : 0 <= S) by (eapply Rle_trans; [apply Rabs_pos|exact Bx]).
    assert (k1 : 1 <= k) by (unfold k; lra).
    assert (NS : 0 <= N ^ 2 * S) by (apply Rmult_le_pos; assumption). assert (NS' : 0 <= Rabs N * S) by (apply Rmult_le_pos; assumption).
    assert (NE : 0 <= N ^ 2 * E) by (apply Rmult_le_pos; assumption). assert (NE' : 0 <= Rabs N * E) by (apply Rmult_le_pos; assumption).
    pose proof (Rabs_pos h') as h0. assert (hH : 0 <= Rabs h' <= H) by (split; [exact h0|exact Hh]).
    assert (kS : S <= k * S) by (unfold k; lra). assert (kE : E <= k * E) by (unfold k; lra).
    assert (Uv : forall a, Rabs a <= 1 -> 0 <= Rabs a / Rabs M <= / Rabs M).
    { intros a Ha. pose proof (Rabs_pos a). unfold Rdiv. split; [apply Rmult_le_pos; lra|].
      rewrite <- (Rmult_1_l (/ Rabs M)) at 2. apply Rmult_le_compat_r; lra. }
    pose proof (Uv u (Ub _)) as Uu. pose proof (Uv v (Ub _)) as Uy. pose proof (Uv t (Ub _)) as Ut.
    assert (Q2 : forall a b, Rabs b <= S -> 0 <= a * N ^ 2 -> 0 <= a * N ^ 2 * Rabs b <= a * N ^ 2 * S).
    { intros a b Hb Ha. pose proof (Rabs_pos b). split; [apply Rmult_le_pos; lra|apply Rmult_le_compat_l; lra]. }
    assert (Q1 : forall b, Rabs b <= S -> 0 <= 2 * Rabs N * Rabs b <= 2 * Rabs N * S).
    { intros b Hb. pose proof (Rabs_pos b). split; [repeat apply Rmult_le_pos; lra|apply Rmult_le_compat_l; lra]. }
    assert (D2 : forall b, Rabs b <= E -> Rabs (N ^ 2 * b) <= N ^ 2 * E).
    { intros b Hb. rewrite Rabs_mult, (Rabs_right (N ^ 2)) by lra. apply Rmult_le_compat_l; lra. }
    assert (D1 : forall b, Rabs b <= E -> Rabs (2 * N * b) <= 2 * Rabs N * E).
    { intros b Hb. rewrite !Rabs_mult, (Rabs_right 2) by lra. apply Rmult_le_compat_l; lra. }
    assert (D3 : forall b, Rabs b <= E -> Rabs (3 * N ^ 2 * b) <= 3 * N ^ 2 * E).
    { intros b Hb. rewrite !Rabs_mult, (Rabs_right 3), (Rabs_right (N ^ 2)) by lra. apply Rmult_le_compat_l; lra. }
    unfold q, c. unfold Rdiv.
    repeat apply Forall2_cons; [..|apply Forall2_nil].
    - eapply comp; [exact A1|fold S; apply comp_size; auto using Rabs_pos; lra|].
      eapply (comp_diff _ _ (B2R x - X) h' (B2R vx - VX)); [ring|assumption|exact Hh|unfold k; lra].
    - eapply comp; [exact A2|fold S; apply comp_size; auto using Rabs_pos; lra|].
      eapply (comp_diff _ _ (B2R y - Y) h' (B2R vy - VY)); [ring|assumption|exact Hh|unfold k; lra].
    - eapply comp; [exact A3|fold S; apply comp_size; auto using Rabs_pos; lra|].
      eapply (comp_diff _ _ (B2R z - Z) h' (B2R vz - VZ)); [ring|assumption|exact Hh|unfold k; lra].
    - pose proof (Q2 3 (B2R x) Bx ltac:(lra)). pose proof (Q1 (B2R vy) Bvy).
      eapply comp; [exact A4|fold S; apply comp_size; auto; [lra|unfold k; lra]|].
      eapply (comp_diff _ _ (B2R vx - VX) h' (3 * N ^ 2 * (B2R x - X) + 2 * N * (B2R vy - VY))); [unfold Rdiv; ring|assumption|exact Hh|].
      eapply Rle_trans; [apply Rabs_triang|]. pose proof (D3 (B2R x - X) ltac:(assumption)). pose proof (D1 (B2R vy - VY) ltac:(assumption)). unfold k; lra.
    - pose proof (Q1 (B2R vx) Bvx).
      eapply comp; [exact A5|fold S; apply comp_size; auto; [lra|unfold k; lra]|].
      eapply (comp_diff _ _ (B2R vy - VY) h' (- (2 * N * (B2R vx - VX)))); [unfold Rdiv; ring|assumption|exact Hh|].
      rewrite Rabs_Ropp. pose proof (D1 (B2R vx - VX) ltac:(assumption)). unfold k; lra.
    - pose proof (Q2 1 (B2R z) Bz ltac:(lra)).
      eapply comp; [exact A6|fold S; apply comp_size; auto; [lra|unfold k; lra]|].
      eapply (comp_diff _ _ (B2R vz - VZ) h' (- (N ^ 2 * (B2R z - Z)))); [unfold Rdiv; ring|assumption|exact Hh|].
      rewrite Rabs_Ropp. pose proof (D2 (B2R z - Z) ltac:(assumption)). unfold k; lra.
  Qed.

  Lemma run_tracks (w : world f64) (wr : world xr) (m n : f64) samples H B : 
    (samples <= 0)%Z -> is_finite m = true -> bpow radix2 (-100) <= Rabs (B2R m) -> within 50 n -> 0 <= H -> 0 <= B ->
    let q := 1 + H * (1 + 3 * B2R n ^ 2 + 2 * Rabs (B2R n)) in
    let c := H / Rabs (B2R m) in
    forall acts k (e : entity f64) (er : entity xr) s r,
    cwh_dyn (N := F64 lm) m n samples "Euler" = Ok (e_dyn e) ->
    cwh_dyn (N := XR Fin) (Fin (B2R m)) (Fin (B2R n)) samples "Euler" = Ok (e_dyn er) ->
    e_cmin e = A0 (nZ (N := F64 lm) (-1)) -> e_cmax e = A0 (n1 (N := F64 lm)) ->
    e_cmin er = A0 (Fin (-1/1)) -> e_cmax er = A0 (Fin (1/1)) ->
    Forall (proper H) acts -> e_state e = A1 s -> e_state er = A1 (map Fin r) -> length s = 6%nat -> tracks (err q B c k) s r ->
    stays wr er B (actsR acts) -> B + err q B c (k + length acts) <= bpow radix2 100 ->
    exists e' er' s' r', run (N := F64 lm) w e (acts64 acts) = Ok e' /\ run (N := XR Fin) wr er (actsR acts) = Ok er' /\
      e_state e' = A1 s' /\ e_state er' = A1 (map Fin r') /\ tracks (err q B c (k + length acts)) s' r'.
  Proof.
    intros Sa Fm Hm Wn H0 B0 q c.
    assert (Q1 : 1 <= q).
    { unfold q. assert (0 <= H * (1 + 3 * B2R n ^ 2 + 2 * Rabs (B2R n))); [|lra]. apply Rmult_le_pos; [exact H0|].
      pose proof (Rabs_pos (B2R n)). nra. }
    assert (c0 : 0 <= c).
    { unfold c, Rdiv. apply Rmult_le_pos; [exact H0|]. left. apply Rinv_0_lt_compat. pose proof (bpow_gt_0 radix2 (-100)). lra. }
    induction acts as [|[h u] acts IH]; intros k e er s r Dd Dr C1 C2 C1r C2r Pa Es Er Ls Tr St Cap.
    - exists e, er, s, r. cbn [length]. rewrite Nat.add_0_r. repeat split; auto.
    - inversion Pa as [|? ? (Wh & Hh & Lu & Fu) Pa']; subst. cbn [fst snd] in *.
      destruct u as [|fx [|fy [|fz [|? ?]]]]; try discriminate. cbn [length] in Cap.
      destruct (St 0%nat er eq_refl) as (r0 & Er0 & Bd). rewrite Er in Er0. injection Er0 as Er0.
      apply (map_inj_Fin r r0) in Er0. subst r0.
      assert (Ek : err q B c k <= err q B c (k + S (length acts))) by (apply err_mono; auto; lia).
      destruct (step_tracks w wr e er m n samples h s r fx fy fz H B (err q B c k) Dd Dr Sa C1 C2 C1r C2r Fm Hm Wn Wh Hh Fu Es Er Ls Tr)
        as (s' & r' & O1 & O2 & S1 & S2 & L' & T').
      { apply err_pos; auto. } { exact Bd. } { lra. }
      assert (G1 := entity_step_config (N := F64 lm) w e h (AArr (A1 [fx; fy; fz]))).
      assert (G2 := entity_step_config (N := XR Fin) wr er (Fin (B2R h)) (AArr (A1 (map Fin (map B2R [fx; fy; fz]))))).
      destruct G1 as (K1 & _ & K2 & K3 & _). destruct G2 as (J1 & _ & J2 & J3 & _).
      destruct (IH (S k) _ _ s' r' ltac:(rewrite K1; exact Dd) ltac:(rewrite J1; exact Dr) ltac:(rewrite K2; exact C1) ltac:(rewrite K3; exact C2)
        ltac:(rewrite J2; exact C1r) ltac:(rewrite J3; exact C2r) Pa' S1 S2 L') as (e' & er' & s2 & r2 & X1 & X2 & X3 & X4 & X5).
      { exact T'. }
      { intros j e' Rn. apply (St (S j) e'). cbn [actsR map firstn run fst snd]. cbn [map] in O2. rewrite O2. cbn [bind]. exact Rn. }
      { replace (S k + length acts)%nat with (k + S (length acts))%nat by lia. exact Cap. }
      exists e', er', s2, r2. cbn [acts64 actsR map run fst snd]. cbn [map] in O2. rewrite O1, O2. cbn [bind].
      replace (k + length ((h, [fx; fy; fz]) :: acts))%nat with (S k + length acts)%nat by (cbn [length]; lia).
      repeat split; auto.
  Qed.

  Lemma tracks_mono E E' s r : E <= E' -> tracks E s r -> tracks E' s r.
  Proof. intros H T. unfold tracks in *. induction T as [|a b s r [F A] T IH]; constructor; [split; [exact F|lra]|exact IH]. Qed.

  Lemma cwh_tracks (w : world f64) (wr : world xr) (m n : f64) samples (x y z vx vy vz : f64) H B acts e er :
    (samples <= 0)%Z -> is_finite m = true -> bpow radix2 (-100) <= Rabs (B2R m) -> within 50 n -> 0 <= H -> 0 <= B ->
    let s0 := map (nf32 (Num := F64 lm)) [x; y; z; vx; vy; vz] in
    let q := 1 + H * (1 + 3 * B2R n ^ 2 + 2 * Rabs (B2R n)) in
    let c := H / Rabs (B2R m) in
    cwh_spacecraft (N := F64 lm) m n samples "Euler" x y z vx vy vz = Ok e ->
    cwh_dyn (N := XR Fin) (Fin (B2R m)) (Fin (B2R n)) samples "Euler" = Ok (e_dyn er) ->
    e_cmin er = A0 (Fin (-1/1)) -> e_cmax er = A0 (Fin (1/1)) -> e_state er = A1 (map Fin (map B2R s0)) ->
    Forall (fun a => is_finite a = true) s0 ->
    Forall (proper H) acts -> stays wr er B (actsR acts) -> B + drift q B c (length acts) <= bpow radix2 100 ->
    exists e' er' s' r', run (N := F64 lm) w e (acts64 acts) = Ok e' /\ run (N := XR Fin) wr er (actsR acts) = Ok er' /\
      e_state e' = A1 s' /\ e_state er' = A1 (map Fin r') /\ tracks (drift q B c (length acts)) s' r'.
  Proof.
    intros Sa Fm Hm Wn H0 B0 s0 q c Ee Dr C1 C2 Er F0 Pa St Cap.
    assert (Q1 : 1 <= q).
    { unfold q. assert (0 <= H * (1 + 3 * B2R n ^ 2 + 2 * Rabs (B2R n))); [|lra]. apply Rmult_le_pos; [exact H0|].
      pose proof (Rabs_pos (B2R n)). nra. }
    assert (c0 : 0 <= c).
    { unfold c, Rdiv. apply Rmult_le_pos; [exact H0|]. left. apply Rinv_0_lt_compat. pose proof (bpow_gt_0 radix2 (-100)). lra. }
    pose proof (err_drift q B c (length acts) Q1 B0 c0) as Ed.
    unfold cwh_spacecraft in Ee. destruct (cwh_dyn (N := F64 lm) m n samples "Euler") as [d|] eqn:Dd; [|discriminate].
    cbn [bind] in Ee.
    assert (De : e_dyn e = d /\ e_cmin e = A0 (nZ (N := F64 lm) (-1)) /\ e_cmax e = A0 (n1 (N := F64 lm)) /\ e_state e = A1 s0)
      by (injection Ee as <-; repeat split).
    destruct De as (De & K1 & K2 & K3). rewrite <- De in Dd.
    destruct (run_tracks w wr m n samples H B Sa Fm Hm Wn H0 B0 acts 0 e er s0 (map B2R s0) Dd Dr K1 K2 C1 C2 Pa K3 Er eq_refl)
      as (e' & er' & s' & r' & X1 & X2 & X3 & X4 & X5).
    - fold q c. cbn [err]. unfold tracks. clear -F0. induction F0; cbn [map]; constructor; auto.
      split; [assumption|]. rewrite Rminus_eq_0, Rabs_R0. lra.
    - exact St.
    - fold q c. cbn [Nat.add]. lra.
    - exists e', er', s', r'. repeat split; auto. eapply tracks_mono; [exact Ed|exact X5].
  Qed.

  Lemma cwh_tracks_run (w : world f64) (wr : world xr) (m n : f64) samples (x y z vx vy vz : f64) H B acts e er :
    (samples <= 0)%Z -> is_finite m = true -> bpow radix2 (-100) <= Rabs (B2R m) -> within 50 n -> 0 <= H -> 0 <= B ->
    let f := fun a : f64 => nf32 (Num := F64 lm) a in
    let g := fun a : f64 => Fin (B2R (f a)) in
    let q := 1 + H * (1 + 3 * B2R n ^ 2 + 2 * Rabs (B2R n)) in
    let c := H / Rabs (B2R m) in
    cwh_spacecraft (N := F64 lm) m n samples "Euler" x y z vx vy vz = Ok e ->
    cwh_spacecraft (N := XR Fin) (Fin (B2R m)) (Fin (B2R n)) samples "Euler" (g x) (g y) (g z) (g vx) (g vy) (g vz) = Ok er ->
    Forall (fun a => is_finite (f a) = true) [x; y; z; vx; vy; vz] ->
    Forall (proper H) acts -> stays wr er B (actsR acts) -> B + drift q B c (length acts) <= bpow radix2 100 ->
    exists e' er' s' r', run (N := F64 lm) w e (acts64 acts) = Ok e' /\ run (N := XR Fin) wr er (actsR acts) = Ok er' /\
      e_state e' = A1 s' /\ e_state er' = A1 (map Fin r') /\ tracks (drift q B c (length acts)) s' r'.
  Proof.
    intros Sa Fm Hm Wn H0 B0 f g q c Ee Er F0 Pa St Cap.
    destruct (cwh_spacecraft_dyn Fin _ _ _ _ _ _ _ _ _ _ _ Er) as (Dr & _ & C1 & C2 & _).
    eapply cwh_tracks; eauto.
    - unfold cwh_spacecraft in Er. destruct (cwh_dyn (N := XR Fin) _ _ _ _) as [d|]; [|discriminate]. cbn [bind] in Er. injection Er as <-. reflexivity.
    - cbn [map]. repeat match goal with H : Forall _ (_ :: _) |- _ => inversion H; clear H; subst end. repeat constructor; assumption.
  Qed.
End F.

Lemma drift_ex : drift (1 + 1 / 100) 1000 1 100 <= / 10 ^ 8.
Proof.
  unfold drift.
  assert (P48 : bpow radix2 (-48) <= 4 / 10 ^ 15) by (simpl; lra). pose proof (bpow_gt_0 radix2 (-48)).
  assert (P7 : bpow radix2 (-700) <= / 10 ^ 15).
  { apply (Rle_trans _ (bpow radix2 (-50))); [apply bpow_le; lia|simpl; lra]. }
  pose proof (bpow_gt_0 radix2 (-700)).
  set (x := (1 + 1 / 100) * (1 + bpow radix2 (-48))). assert (X : 0 <= x <= 1.011) by (unfold x; simpl (10 ^ 15) in P48; lra).
  assert (A : 0 <= x ^ 10 <= 1.12).
  { split; [apply pow_le; lra|]. eapply Rle_trans; [apply pow_incr; exact X|]. simpl. lra. }
  assert (C : 0 <= x ^ 100 <= 4).
  { change 100%nat with (10 * 10)%nat. rewrite pow_mult. split; [apply pow_le; lra|]. eapply Rle_trans; [apply pow_incr; exact A|]. simpl. lra. }
  replace (INR 100) with 100 by (simpl; lra).
  set (d := bpow radix2 (-48) * _ + _). assert (D : 0 <= d <= 5 / 10 ^ 12).
  { unfold d. simpl (10 ^ 15) in *. simpl (10 ^ 12). split; lra. }
  assert (x ^ 100 * d <= 4 * (5 / 10 ^ 12)) by (apply Rmult_le_compat; lra). simpl (10 ^ 12) in *. simpl (10 ^ 8). lra.
Qed.

Lemma round_ex : forall w : world f64,
  (e <- cwh_spacecraft (N := F64 lm0) (fl 12 1) (fl 1027 1000000) 0 "Euler" (fl 1 10) (fl 0 1) (fl 7 10) (fl 2 10) (fl 0 1) (fl 0 1) ;;
   let o := entity_step (N := F64 lm0) w e (fl 3 10) (AArr (A1 [fl 1 1; fl 0 1; fl 0 1])) in
   _ <- o_res o ;; match e_state (o_entity o) with A1 l => Ok (map (fun a => B2SF a) l) | A0 _ => Err TypeError end) =
  Ok [SpecFloat.S754_finite false 5764607608933581 (-55); SpecFloat.S754_zero false;
      SpecFloat.S754_finite false 6305039370944512 (-53); SpecFloat.S754_finite false 8106482856696661 (-55);
      SpecFloat.S754_finite true 4546753547039836 (-65); SpecFloat.S754_finite true 8367772212723523 (-75)].
Proof. intros w. vm_compute. reflexivity. Qed.

