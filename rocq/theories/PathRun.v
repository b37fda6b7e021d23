(** Binary64 flights of the Dubins aircraft against the true path (C118). *)
From Coq Require Import String ZArith Reals Bool List Lra Lia.
From Coquelicot Require Import Coquelicot.
From Flocq Require Import Core.Core IEEE754.BinarySingleNaN.
From Verif Require Import PyBase Num Arr BaseModel Dubins SpecBase SpecCwh XReal XTac ConvLemmas Float64 SpecRound SpecFly FlyRun FlyEx SpecPath.
Import List ListNotations.
Local Open Scope R_scope.

Lemma clip_lip lo hi x y : Rabs (clipR lo hi x - clipR lo hi y) <= Rabs (x - y).
Proof. unfold clipR, Rmin, Rmax. repeat destruct (Rle_dec _ _); unfold Rabs; repeat destruct (Rcase_abs _); lra. Qed.
Lemma clip_in lo hi x : lo <= x <= hi -> clipR lo hi x = x.
Proof. unfold clipR, Rmin, Rmax. repeat destruct (Rle_dec _ _); lra. Qed.
Lemma clip_abs lo hi x K : Rabs lo <= K -> Rabs hi <= K -> Rabs (clipR lo hi x) <= K.
Proof.
  intros A B. apply Rabs_le_inv in A, B. apply Rabs_le. unfold clipR, Rmin, Rmax. repeat destruct (Rle_dec _ _); lra.
Qed.

Lemma lip_continuous (f : R -> R) K : (forall x y, Rabs (f x - f y) <= K * Rabs (x - y)) -> forall x, continuous f x.
Proof.
  intros Lp x. apply filterlim_locally. intros eps.
  assert (K0 : 0 <= K). { pose proof (Lp 0 1) as Q. rewrite Rminus_0_l, Rabs_Ropp, Rabs_R1 in Q. pose proof (Rabs_pos (f 0 - f 1)). lra. }
  assert (Hd : 0 < eps / (K + 1)) by (apply Rdiv_lt_0_compat; [apply cond_pos|lra]).
  exists (mkposreal _ Hd). intros y Hy. cbv [ball] in *. cbn in *. unfold AbsRing_ball, abs, minus, plus, opp in *. cbn in *.
  change (Rabs (f y + - f x) < eps). change (Rabs (y + - x) < eps / (K + 1)) in Hy.
  eapply Rle_lt_trans; [apply Lp|]. fold (y - x) in Hy.
  assert (E : K * Rabs (y - x) <= (K + 1) * Rabs (y - x)) by (apply Rmult_le_compat_r; [apply Rabs_pos|lra]).
  eapply Rle_lt_trans; [exact E|]. apply (Rmult_lt_compat_l (K + 1)) in Hy; [|lra].
  replace ((K + 1) * (eps / (K + 1))) with (pos eps) in Hy by (field; lra). exact Hy.
Qed.

(** A function that leaves its initial value at a rate of at most [K] has an integral close to the product. *)
Lemma int_close (g : R -> R) K h : 0 <= h -> (forall t, continuous g t) -> (forall t, 0 <= t -> Rabs (g t - g 0) <= K * t) ->
  Rabs (RInt g 0 h - h * g 0) <= K * (h * h / 2).
Proof.
  intros Hh Cg Bd.
  assert (Eg : ex_RInt g 0 h) by (apply (ex_RInt_continuous (V := R_CompleteNormedModule)); intros; apply Cg).
  assert (Ec : ex_RInt (fun _ : R => g 0) 0 h) by apply ex_RInt_const.
  assert (El : ex_RInt (fun t => K * t) 0 h).
  { apply (ex_RInt_continuous (V := R_CompleteNormedModule)). intros t _. apply (continuous_mult (fun _ => K) (fun t => t)); [apply continuous_const|apply continuous_id]. }
  assert (Il : RInt (fun t => K * t) 0 h = K * (h * h / 2)).
  { apply is_RInt_unique. replace (K * (h * h / 2)) with (minus (K * (h * h / 2)) (K * (0 * 0 / 2))) by (unfold minus, plus, opp; cbn; lra).
    apply (is_RInt_derive (fun t => K * (t * t / 2))).
    - intros t _. auto_derive; [exact I|field].
    - intros t _. apply (continuous_mult (fun _ => K) (fun t => t)); [apply continuous_const|apply continuous_id]. }
  assert (Ic : RInt (fun _ : R => g 0) 0 h = h * g 0) by (rewrite RInt_const; unfold scal; cbn; unfold mult; cbn; ring).
  rewrite <- Ic, <- Il. change (RInt g 0 h - RInt (fun _ : R => g 0) 0 h) with (minus (RInt g 0 h) (RInt (fun _ : R => g 0) 0 h)).
  rewrite <- RInt_minus by assumption.
  eapply Rle_trans; [apply abs_RInt_le; [exact Hh|apply @ex_RInt_minus; assumption]|].
  apply RInt_le; [exact Hh| |exact El|].
  - apply (ex_RInt_continuous (V := R_CompleteNormedModule)). intros t _. apply continuous_comp; [|apply continuous_Rabs].
    apply (continuous_minus (V := R_NormedModule)); [apply Cg|apply continuous_const].
  - intros t [Ht _]. apply Bd. lra.
Qed.

Section S.
  Variables (L : limits) (V Q C : R).
  Hypotheses (V1 : Rabs (v_lo L) <= V) (V2 : Rabs (v_hi L) <= V) (Q1 : Rabs (r_lo L) <= Q) (Q2 : Rabs (r_hi L) <= Q)
    (C1 : Rabs (a_lo L) <= C) (C2 : Rabs (a_hi L) <= C).

  Lemma one h rate acc p (tr : R -> R) : (forall a b, Rabs (tr a - tr b) <= Rabs (a - b)) -> (forall a, Rabs (tr a) <= 1) ->
    0 <= h -> v_lo L <= pv p <= v_hi L ->
    let head := fun t => phead p + t * clipR (r_lo L) (r_hi L) rate in
    let speed := fun t => clipR (v_lo L) (v_hi L) (pv p + t * clipR (a_lo L) (a_hi L) acc) in
    Rabs (RInt (fun t => speed t * tr (head t)) 0 h - h * (pv p * tr (phead p))) <= (C + V * Q) * (h * h / 2).
  Proof.
    intros Lt Ot Hh Hp head speed. set (r := clipR (r_lo L) (r_hi L) rate) in *. set (a := clipR (a_lo L) (a_hi L) acc) in *.
    assert (rQ : Rabs r <= Q) by (apply clip_abs; assumption). assert (aC : Rabs a <= C) by (apply clip_abs; assumption).
    assert (sV : forall t, Rabs (speed t) <= V) by (intros; apply clip_abs; assumption).
    assert (S0 : speed 0 = pv p) by (unfold speed; rewrite Rmult_0_l, Rplus_0_r; apply clip_in; exact Hp).
    assert (H0 : head 0 = phead p) by (unfold head; ring).
    set (g := fun t => speed t * tr (head t)).
    assert (Lg : forall x y, Rabs (g x - g y) <= (C + V * Q) * Rabs (x - y)).
    { intros x y. unfold g. replace (speed x * tr (head x) - speed y * tr (head y)) with ((speed x - speed y) * tr (head x) + speed y * (tr (head x) - tr (head y))) by ring.
      eapply Rle_trans; [apply Rabs_triang|]. rewrite !Rabs_mult.
      assert (A1 : Rabs (speed x - speed y) <= C * Rabs (x - y)).
      { eapply Rle_trans; [apply clip_lip|]. replace (pv p + x * a - (pv p + y * a)) with (a * (x - y)) by ring. rewrite Rabs_mult.
        apply Rmult_le_compat_r; [apply Rabs_pos|exact aC]. }
      assert (A2 : Rabs (tr (head x) - tr (head y)) <= Q * Rabs (x - y)).
      { eapply Rle_trans; [apply Lt|]. unfold head. replace (phead p + x * r - (phead p + y * r)) with (r * (x - y)) by ring. rewrite Rabs_mult.
        apply Rmult_le_compat_r; [apply Rabs_pos|exact rQ]. }
      assert (A3 : Rabs (speed x - speed y) * Rabs (tr (head x)) <= C * Rabs (x - y) * 1) by (apply Rmult_le_compat; auto using Rabs_pos).
      assert (A4 : Rabs (speed y) * Rabs (tr (head x) - tr (head y)) <= V * (Q * Rabs (x - y))) by (apply Rmult_le_compat; auto using Rabs_pos).
      lra. }
    replace (pv p * tr (phead p)) with (g 0) by (unfold g; rewrite S0, H0; reflexivity).
    apply int_close; [exact Hh|apply (lip_continuous g _ Lg)|].
    intros t Ht. eapply Rle_trans; [apply Lg|]. rewrite Rminus_0_r, Rabs_right by lra. lra.
  Qed.

  Lemma path_close H : 0 <= H -> forall l p p' E, Forall (fun c => 0 <= fst (fst c) <= H) l -> v_lo L <= pv p <= v_hi L ->
    phead p' = phead p -> pv p' = pv p -> Rabs (px p - px p') <= E -> Rabs (py p - py p') <= E ->
    phead (path L p' l) = phead (fly L p l) /\ pv (path L p' l) = pv (fly L p l) /\
    Rabs (px (fly L p l) - px (path L p' l)) <= E + INR (length l) * ((C + V * Q) * (H * H / 2)) /\
    Rabs (py (fly L p l) - py (path L p' l)) <= E + INR (length l) * ((C + V * Q) * (H * H / 2)).
  Proof.
    intros H0. set (tau := (C + V * Q) * (H * H / 2)).
    assert (c0 : 0 <= C) by (eapply Rle_trans; [apply Rabs_pos|exact C1]). assert (v0 : 0 <= V) by (eapply Rle_trans; [apply Rabs_pos|exact V1]).
    assert (q0 : 0 <= Q) by (eapply Rle_trans; [apply Rabs_pos|exact Q1]). assert (vq : 0 <= V * Q) by (apply Rmult_le_pos; assumption).
    induction l as [|[[h rate] acc] l IH]; intros p p' E F Hp Eh Ev Ex Ey.
    - cbn. split; [exact Eh|]. split; [exact Ev|]. split; lra.
    - inversion F as [|? ? Hh F']; subst. cbn [fst] in Hh. cbn [path fly length]. rewrite S_INR.
      assert (Hp' : v_lo L <= pv p' <= v_hi L) by (rewrite Ev; exact Hp).
      assert (Th : h * h / 2 <= H * H / 2) by (assert (h * h <= H * H) by (apply Rmult_le_compat; lra); lra).
      assert (Tt : (C + V * Q) * (h * h / 2) <= tau) by (apply Rmult_le_compat_l; lra).
      pose proof (one h rate acc p' cos cos_close cos_one ltac:(lra) Hp') as Ox. pose proof (one h rate acc p' sin sin_close sin_one ltac:(lra) Hp') as Oy.
      cbv zeta in Ox, Oy.
      replace (E + (INR (length l) + 1) * tau) with ((E + tau) + INR (length l) * tau) by ring.
      apply IH; [exact F'| | | | |]; unfold fly1, path1; cbn [px py phead pv].
      + apply LimLemmas.clipR_between. lra.
      + rewrite Eh. reflexivity.
      + rewrite Ev. reflexivity.
      + clear Oy. rewrite Eh, Ev in *. set (I := RInt _ _ _) in *.
        replace (px p + h * (pv p * cos (phead p)) - (px p' + I)) with ((px p - px p') + - (I - h * (pv p * cos (phead p)))) by ring.
        eapply Rle_trans; [apply Rabs_triang|]. rewrite Rabs_Ropp. lra.
      + clear Ox. rewrite Eh, Ev in *. set (I := RInt _ _ _) in *.
        replace (py p + h * (pv p * sin (phead p)) - (py p' + I)) with ((py p - py p') + - (I - h * (pv p * sin (phead p)))) by ring.
        eapply Rle_trans; [apply Rabs_triang|]. rewrite Rabs_Ropp. lra.
  Qed.
End S.

Lemma flies_path E T s p p' : 0 <= T -> flies E s p -> phead p' = phead p -> pv p' = pv p -> Rabs (px p - px p') <= T -> Rabs (py p - py p') <= T ->
  flies (E + T) s p'.
Proof.
  intros T0. unfold flies. destruct s as [|x [|y [|hd [|v [|? ?]]]]]; try contradiction.
  intros (F & A & B & (k & K) & D) Eh Ev X Y. rewrite Eh, Ev.
  split; [exact F|]. split; [|split; [|split; [exists k; lra|lra]]].
  - replace (B2R x - px p') with ((B2R x - px p) + (px p - px p')) by ring. eapply Rle_trans; [apply Rabs_triang|lra].
  - replace (B2R y - py p') with ((B2R y - py p) + (py p - py p')) by ring. eapply Rle_trans; [apply Rabs_triang|lra].
Qed.

Lemma fly_path (lm : libm) (w : world f64) v_min v_max hr_min hr_max acc_min acc_max samples B H V Q C xc yc hdc vc x0 y0 hd0 v0 l :
  accurate lm -> (samples <= 0)%Z ->
  Forall (fun a : f64 => is_finite (f64_f32 a) = true) [v_min; v_max] -> Forall (fun a : f64 => is_finite a = true) [x0; y0; hd0; v0] ->
  Forall (SpecRound.within 100) [hr_min; hr_max; acc_min; acc_max] ->
  Forall (fun a : f64 => Rabs (B2R a) <= V) [f64_f32 v_min; f64_f32 v_max; v0] ->
  Forall (fun a : f64 => Rabs (B2R a) <= Q) [hr_min; hr_max] -> Forall (fun a : f64 => Rabs (B2R a) <= C) [acc_min; acc_max] ->
  B2R (f64_f32 v_min) <= B2R v0 <= B2R (f64_f32 v_max) ->
  0 <= H -> Forall (fly_ok H) l ->
  Forall (fun a : f64 => Rabs (B2R a) + INR (length l) * (H * V) + 1 <= B) [x0; y0; hd0] ->
  B <= bpow radix2 99 -> V <= bpow radix2 99 -> fly_error B H V Q C (length l) <= 1 ->
  let L := {| v_lo := B2R (f64_f32 v_min); v_hi := B2R (f64_f32 v_max); r_lo := B2R hr_min; r_hi := B2R hr_max;
              a_lo := B2R acc_min; a_hi := B2R acc_max |} in
  let p := {| px := B2R x0; py := B2R y0; phead := B2R hd0; pv := B2R v0 |} in
  let a := dubins2d_aircraft (N := F64 lm) samples "Euler" v_min v_max hr_min hr_max acc_min acc_max xc yc hdc vc in
  exists e s, run (N := F64 lm) w (set_state a (A1 [x0; y0; hd0; v0])) (map fly_act l) = Ok e /\
    e_state e = A1 s /\ flies (fly_error B H V Q C (length l) + INR (length l) * ((C + V * Q) * (H * H / 2))) s (path L p (map fly_num l)).
Proof.
  intros Ac Sa Fv Fs Wl HV HQ HC Hv H0 Fl Fb B9 V9 Fe L p a.
  destruct (fly_main lm w v_min v_max hr_min hr_max acc_min acc_max samples B H V Q C xc yc hdc vc x0 y0 hd0 v0 l Ac Sa Fv Fs Wl HV HQ HC H0 Fl Fb B9 V9 Fe)
    as (e & s & R1 & R2 & R3).
  exists e, s. split; [exact R1|]. split; [exact R2|].
  inversion HV as [|? ? V1 HV1]; subst. inversion HV1 as [|? ? V2 _]; subst. inversion HQ as [|? ? Q1 HQ1]; subst. inversion HQ1 as [|? ? Q2 _]; subst.
  inversion HC as [|? ? C1 HC1]; subst. inversion HC1 as [|? ? C2 _]; subst.
  destruct (path_close L V Q C V1 V2 Q1 Q2 C1 C2 H H0 (map fly_num l) p p 0) as (A1 & A2 & A3 & A4); auto.
  - clear -Fl. induction Fl as [|[[h r] c] l (_ & Hh & _) Fl IH]; cbn [map]; constructor; [exact Hh|exact IH].
  - rewrite Rminus_eq_0, Rabs_R0. lra.
  - rewrite Rminus_eq_0, Rabs_R0. lra.
  - rewrite map_length, Rplus_0_l in A3, A4. apply (flies_path _ _ _ (fly L p (map fly_num l))); auto.
    eapply Rle_trans; [apply Rabs_pos|exact A3].
Qed.

Lemma path_num : fly_error 1401 (1 / 100) 400 1 100 100 <= 1 / 1000.
Proof.
  unfold fly_error, step_error. replace (INR 100) with 100 by (simpl; lra).
  assert (P7 : bpow radix2 (-700) <= / 10 ^ 15).
  { apply (Rle_trans _ (bpow radix2 (-50))); [apply bpow_le; lia|simpl; lra]. }
  simpl (bpow radix2 (-48)). simpl (10 ^ 15) in P7. lra.
Qed.
Lemma path_ex (lm : libm) (w : world f64) l : accurate lm -> length l = 100%nat -> Forall (fly_ok (1 / 100)) l ->
  let a := dubins2d_aircraft (N := F64 lm) 0 "Euler" (fl 200 1) (fl 400 1) (fl (-1) 1) (fl 1 1) (fl (-100) 1) (fl 100 1)
    (fl 0 1) (fl 0 1) (fl 0 1) (fl 200 1) in
  exists e s, run (N := F64 lm) w (set_state a (A1 [fl 1000 1; fl 500 1; fl 3 1; fl 250 1])) (map fly_act l) = Ok e /\ e_state e = A1 s /\
    flies 3 s (path {| v_lo := 200; v_hi := 400; r_lo := -1; r_hi := 1; a_lo := -100; a_hi := 100 |}
      {| px := 1000; py := 500; phead := 3; pv := 250 |} (map fly_num l)).
Proof.
  intros Ac Ll Fo. cbv zeta.
  assert (N1 : is_finite (f64_f32 (fl 200 1)) = true /\ B2R (f64_f32 (fl 200 1)) = 200) by flv.
  assert (N2 : is_finite (f64_f32 (fl 400 1)) = true /\ B2R (f64_f32 (fl 400 1)) = 400) by flv.
  assert (N3 : is_finite (fl 1000 1) = true /\ B2R (fl 1000 1) = 1000) by flv.
  assert (N4 : is_finite (fl 500 1) = true /\ B2R (fl 500 1) = 500) by flv.
  assert (N5 : is_finite (fl 3 1) = true /\ B2R (fl 3 1) = 3) by flv.
  assert (N6 : is_finite (fl 250 1) = true /\ B2R (fl 250 1) = 250) by flv.
  assert (M1 : is_finite (fl (-1) 1) = true /\ B2R (fl (-1) 1) = -1) by flv.
  assert (M2 : is_finite (fl 1 1) = true /\ B2R (fl 1 1) = 1) by flv.
  assert (M3 : is_finite (fl (-100) 1) = true /\ B2R (fl (-100) 1) = -100) by flv.
  assert (M4 : is_finite (fl 100 1) = true /\ B2R (fl 100 1) = 100) by flv.
  assert (W : forall a r, is_finite a = true /\ B2R a = r -> Rabs r <= 1024 -> SpecRound.within 100 a).
  { intros a r [F <-] H. split; [exact F|]. eapply Rle_trans; [exact H|]. apply (bpow_le radix2 10). lia. }
  assert (T : forall k : R, k <= 2 ^ 20 -> k <= bpow radix2 99).
  { intros k H. eapply Rle_trans; [exact H|]. replace (2 ^ 20) with (bpow radix2 20) by (simpl; lra). apply bpow_le. lia. }
  assert (Hv : B2R (f64_f32 (fl 200 1)) <= B2R (fl 250 1) <= B2R (f64_f32 (fl 400 1))) by (rewrite (proj2 N1), (proj2 N2), (proj2 N6); lra).
  pose proof path_num as Er. rewrite <- Ll in Er.
  destruct (fly_path lm w (fl 200 1) (fl 400 1) (fl (-1) 1) (fl 1 1) (fl (-100) 1) (fl 100 1) 0 1401 (1 / 100) 400 1 100
    (fl 0 1) (fl 0 1) (fl 0 1) (fl 200 1) (fl 1000 1) (fl 500 1) (fl 3 1) (fl 250 1) l) as (e & s & R & Es & Fs); try exact Hv; auto; try lia; try (simpl in Er; lra).
  - repeat (constructor; [eapply W; [eassumption|apply Rabs_le; lra]|]). constructor.
  - repeat (constructor; [first [rewrite (proj2 N1) | rewrite (proj2 N2) | rewrite (proj2 N6)]; apply Rabs_le; lra|]). constructor.
  - repeat (constructor; [first [rewrite (proj2 M1) | rewrite (proj2 M2)]; apply Rabs_le; lra|]). constructor.
  - repeat (constructor; [first [rewrite (proj2 M3) | rewrite (proj2 M4)]; apply Rabs_le; lra|]). constructor.
  - rewrite Ll. replace (INR 100) with 100 by (simpl; lra).
    repeat (constructor; [first [rewrite (proj2 N3) | rewrite (proj2 N4) | rewrite (proj2 N5)]; rewrite Rabs_pos_eq; lra|]). constructor.
  - apply T. simpl. lra.
  - apply T. simpl. lra.
  - exists e, s. split; [exact R|]. split; [exact Es|]. rewrite (proj2 N1), (proj2 N2), (proj2 N3), (proj2 N4), (proj2 N5), (proj2 N6),
      (proj2 M1), (proj2 M2), (proj2 M3), (proj2 M4) in Fs. eapply flies_mono; [|exact Fs]. rewrite Ll in *. replace (INR 100) with 100 by (simpl; lra).
    clear -Er. set (u := fly_error _ _ _ _ _ _) in *. lra.
Qed.

(** The integral in [path1] solves the equations of motion. *)
Lemma path_moves L rate acc p h :
  is_derive (fun t => px (path1 L t rate acc p)) h (pv (path1 L h rate acc p) * cos (phead (path1 L h rate acc p))) /\
  is_derive (fun t => py (path1 L t rate acc p)) h (pv (path1 L h rate acc p) * sin (phead (path1 L h rate acc p))) /\
  is_derive (fun t => phead (path1 L t rate acc p)) h (clipR (r_lo L) (r_hi L) rate) /\
  (v_lo L < pv p + h * clipR (a_lo L) (a_hi L) acc < v_hi L -> is_derive (fun t => pv (path1 L t rate acc p)) h (clipR (a_lo L) (a_hi L) acc)).
Proof.
  unfold path1. cbn [px py phead pv]. set (r := clipR (r_lo L) (r_hi L) rate). set (a := clipR (a_lo L) (a_hi L) acc).
  assert (Cs : forall t, continuous (fun t => clipR (v_lo L) (v_hi L) (pv p + t * a)) t).
  { apply (lip_continuous _ (Rabs a)). intros x y. eapply Rle_trans; [apply clip_lip|].
    replace (pv p + x * a - (pv p + y * a)) with (a * (x - y)) by ring. rewrite Rabs_mult. lra. }
  assert (Ch : forall t, continuous (fun t => phead p + t * r) t).
  { apply (lip_continuous _ (Rabs r)). intros x y. replace (phead p + x * r - (phead p + y * r)) with (r * (x - y)) by ring. rewrite Rabs_mult. lra. }
  assert (Int : forall x (g : R -> R), (forall t, continuous g t) -> is_derive (fun t => x + RInt g 0 t) h (g h)).
  { intros x g Cg. replace (g h) with (plus 0 (g h)) by (unfold plus; cbn; ring).
    apply (is_derive_plus (V := R_NormedModule) (fun _ => x) (fun t => RInt g 0 t)); [apply (is_derive_const (V := R_NormedModule))|].
    apply (is_derive_RInt g _ 0); [|apply Cg]. exists posreal_one. intros y _. apply (RInt_correct (V := R_CompleteNormedModule)).
    apply (ex_RInt_continuous (V := R_CompleteNormedModule)). intros; apply Cg. }
  split; [|split; [|split]].
  - apply (Int _ (fun t => clipR (v_lo L) (v_hi L) (pv p + t * a) * cos (phead p + t * r))). intros t. apply (continuous_mult (K := R_AbsRing)); [apply Cs|].
    apply (continuous_comp (fun t => phead p + t * r) cos); [apply Ch|apply continuous_cos].
  - apply (Int _ (fun t => clipR (v_lo L) (v_hi L) (pv p + t * a) * sin (phead p + t * r))). intros t. apply (continuous_mult (K := R_AbsRing)); [apply Cs|].
    apply (continuous_comp (fun t => phead p + t * r) sin); [apply Ch|apply continuous_sin].
  - auto_derive; [exact I|ring].
  - intros [Lo Hi]. apply (is_derive_ext_loc (fun t => pv p + t * a)).
    + assert (Ca : continuous (fun t => pv p + t * a) h) by (apply (lip_continuous _ (Rabs a)); intros x y; replace (pv p + x * a - (pv p + y * a)) with (a * (x - y)) by ring; rewrite Rabs_mult; lra).
      assert (O : locally (pv p + h * a) (fun y => v_lo L < y < v_hi L)).
      { apply (open_and (fun y => v_lo L < y) (fun y => y < v_hi L)); [apply open_gt|apply open_lt|split; assumption]. }
      apply Ca in O. unfold filtermap in O. revert O. apply filter_imp. intros t Ht. symmetry. apply clip_in. lra.
    + auto_derive; [exact I|ring].
Qed.

Lemma path_moves_ex : let L := {| v_lo := 200; v_hi := 400; r_lo := -1; r_hi := 1; a_lo := -100; a_hi := 100 |} in
  path1 L (PI / 2) 1 0 {| px := 1000; py := 500; phead := 0; pv := 250 |} = {| px := 1250; py := 750; phead := PI / 2; pv := 250 |}.
Proof.
  cbv zeta. unfold path1. cbn [v_lo v_hi r_lo r_hi a_lo a_hi px py phead pv].
  rewrite (clip_in (-1) 1 1), (clip_in (-100) 100 0) by lra.
  assert (E : forall (F g : R -> R) d, (forall t, is_derive F t (g t)) -> (forall t, continuous g t) -> F (PI / 2) - F 0 = d -> RInt g 0 (PI / 2) = d).
  { intros F g d D Cg Ed. rewrite <- Ed. apply is_RInt_unique. apply (is_RInt_derive (V := R_CompleteNormedModule) F g); intros; [apply D|apply Cg]. }
  assert (Sp : forall t, clipR 200 400 (250 + t * 0) = 250) by (intros t; rewrite Rmult_0_r, Rplus_0_r; apply clip_in; lra).
  rewrite (RInt_ext (fun t => clipR 200 400 (250 + t * 0) * cos (0 + t * 1)) (fun t => 250 * cos t)) by (intros t _; rewrite Sp; f_equal; f_equal; ring).
  rewrite (RInt_ext (fun t => clipR 200 400 (250 + t * 0) * sin (0 + t * 1)) (fun t => 250 * sin t)) by (intros t _; rewrite Sp; f_equal; f_equal; ring).
  rewrite (E (fun t => 250 * sin t) (fun t => 250 * cos t) 250), (E (fun t => - 250 * cos t) (fun t => 250 * sin t) 250), Sp.
  - f_equal; ring.
  - intros t. auto_derive; [exact I|ring].
  - intros t. apply (continuous_mult (K := R_AbsRing)); [apply continuous_const|apply continuous_sin].
  - rewrite cos_PI2, cos_0. ring.
  - intros t. auto_derive; [exact I|ring].
  - intros t. apply (continuous_mult (K := R_AbsRing)); [apply continuous_const|apply continuous_cos].
  - rewrite sin_PI2, sin_0. ring.
Qed.
