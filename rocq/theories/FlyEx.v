(** Flights from an assigned state, wrapping of state vectors, and examples (C113). *)
From Coq Require Import String ZArith Reals Bool List Lra Lia Psatz.
From Flocq Require Import Core.Core IEEE754.BinarySingleNaN.
From Verif Require Import PyBase Num Arr BaseModel Dubins Spec SpecCwh NumOrdLemmas ArrLemmas BaseLemmas BaseLemmas2 BaseLemmas3 LimLemmas
  Float64 XTac F64Wrap F64Bound F64Err ConvLemmas SpecRound RoundCwh SpecLin LinRound WrapErr SpecFly FlyRound FlyRun.
Import List ListNotations.
Local Open Scope R_scope.

Section F.
  Variable lm : libm.
  Local Hint Extern 0 (Num f64) => exact (F64 lm) : typeclass_instances.

  Lemma fly_main (w : world f64) v_min v_max hr_min hr_max acc_min acc_max samples B H V Q C xc yc hdc vc x0 y0 hd0 v0 l :
    accurate lm -> (samples <= 0)%Z ->
    Forall (fun a : f64 => is_finite (f64_f32 a) = true) [v_min; v_max] -> Forall (fun a : f64 => is_finite a = true) [x0; y0; hd0; v0] ->
    Forall (within 100) [hr_min; hr_max; acc_min; acc_max] ->
    Forall (fun a : f64 => Rabs (B2R a) <= V) [f64_f32 v_min; f64_f32 v_max; v0] ->
    Forall (fun a : f64 => Rabs (B2R a) <= Q) [hr_min; hr_max] -> Forall (fun a : f64 => Rabs (B2R a) <= C) [acc_min; acc_max] ->
    0 <= H -> Forall (fly_ok H) l ->
    Forall (fun a : f64 => Rabs (B2R a) + INR (length l) * (H * V) + 1 <= B) [x0; y0; hd0] ->
    B <= bpow radix2 99 -> V <= bpow radix2 99 -> fly_error B H V Q C (length l) <= 1 ->
    let L := {| v_lo := B2R (f64_f32 v_min); v_hi := B2R (f64_f32 v_max); r_lo := B2R hr_min; r_hi := B2R hr_max;
                a_lo := B2R acc_min; a_hi := B2R acc_max |} in
    let p := {| px := B2R x0; py := B2R y0; phead := B2R hd0; pv := B2R v0 |} in
    let a := dubins2d_aircraft samples "Euler" v_min v_max hr_min hr_max acc_min acc_max xc yc hdc vc in
    exists e s, run w (set_state a (A1 [x0; y0; hd0; v0])) (map fly_act l) = Ok e /\
      e_state e = A1 s /\ flies (fly_error B H V Q C (length l)) s (fly L p (map fly_num l)).
  Proof.
    intros Ac Sa Ff Fs0 Wc SV SQ SC H0 Fo SB B99 V99 Er L p a.
    apply Forall_cons_iff in Ff as [F1 Ff]. apply Forall_cons_iff in Ff as [F2 _].
    apply Forall_cons_iff in SV as [V1 SV]. apply Forall_cons_iff in SV as [V2 SV]. apply Forall_cons_iff in SV as [V3 _].
    apply Forall_cons_iff in SQ as [Q1 SQ]. apply Forall_cons_iff in SQ as [Q2 _].
    apply Forall_cons_iff in SC as [C1 SC]. apply Forall_cons_iff in SC as [C2 _].
    apply Forall_cons_iff in SB as [B1 SB]. apply Forall_cons_iff in SB as [B2 SB]. apply Forall_cons_iff in SB as [B3 _].
    set (X := Rmax (Rabs (B2R x0)) (Rabs (B2R y0))).
    assert (X1 : Rabs (B2R x0) <= X) by apply Rmax_l. assert (X2 : Rabs (B2R y0) <= X) by apply Rmax_r.
    pose proof (Rabs_pos (B2R x0)) as X3.
    assert (Bx : X + INR (length l) * (H * V) + 1 <= B) by (unfold X, Rmax; destruct (Rle_dec _ _); lra).
    set (e0 := set_state a (A1 [x0; y0; hd0; v0])).
    assert (Er0 : 0 + fly_error B H V Q C (length l) <= 1) by (rewrite Rplus_0_l; exact Er).
    assert (V0' : 0 <= V) by (eapply Rle_trans; [apply Rabs_pos|exact V1]).
    assert (NHV : 0 <= INR (length l) * (H * V)) by (apply Rmult_le_pos; [apply pos_INR|apply Rmult_le_pos; assumption]).
    assert (I : fly_inv lm v_min v_max hr_min hr_max acc_min acc_max samples B H V Q C X 0 0 e0 p).
    { unfold fly_inv. repeat (split; [reflexivity|]). cbn [p px py phead pv INR]. rewrite !Rmult_0_l, !Rplus_0_r.
      split; [exact X1|]. split; [exact X2|]. split; [exact V3|].
      exists x0, y0, hd0, v0. split; [reflexivity|].
      split; [exact Fs0|].
      assert (Z : 0 <= 0 + fly_error B H V Q C 0) by (unfold fly_error; cbn [INR]; rewrite !Rmult_0_l; lra).
      rewrite !Rminus_eq_0, Rabs_R0. split; [exact Z|]. split; [exact Z|]. split; [|split; [lra|split; [exact V3|lra]]].
      exists 0%Z. rewrite Rmult_0_r, Rmult_0_l, Rplus_0_r, Rminus_eq_0, Rabs_R0. lra. }
    destruct (fly_run lm w v_min v_max hr_min hr_max acc_min acc_max samples B H V Q C X 0 (length l) Ac Sa F1 F2 Wc V1 V2 Q1 Q2 C1 C2 H0
      (Rle_trans _ _ _ X3 X1) Bx B99 V99 Er0 l 0 e0 p ltac:(lia) I Fo) as (e & R & I').
    destruct (fly_inv_flies lm v_min v_max hr_min hr_max acc_min acc_max samples B H V Q C X 0 (length l) V1 Q1 C1 H0 (Rle_refl 0) (Rle_trans _ _ _ X3 X1) Bx _ _ _ I')
      as (s & Es & Fs).
    rewrite Rplus_0_l in Fs. exists e, s. auto.
  Qed.

  Lemma wrap_state (d : dyn f64) c s : d_wrap d = Some (A1 c) -> length c = length s ->
    Forall2 (fun a x => is_nan a = true \/ (a = B754_zero false /\ is_finite x = true)) c s ->
    exists s', wrap_angles d (A1 s) = Ok (A1 s') /\ length s' = length s /\
      forall i, (i < length s)%nat -> wrapped (B2R f64_pi) (nth i c (B754_zero false)) (nth i s (B754_zero false)) (nth i s' (B754_zero false)).
  Proof.
    intros W Lc F. exists (wrap_list c s). split; [apply wrap_angles_list; assumption|]. clear W Lc.
    induction F as [|a x c s Ha F [IHl IH]]; [split; [reflexivity|cbn; lia]|].
    cbn [wrap_list length]. split; [f_equal; exact IHl|]. intros [|i] Hi; [|apply IH; cbn in Hi; lia]. cbn [nth].
    destruct Ha as [Ha|[-> Fx]]; unfold wrapped.
    - destruct a; try discriminate. reflexivity.
    - cbn [is_nan]. change (nisnan (B754_zero false : f64)) with false. cbv iota.
      replace (B754_zero false : f64) with (n0 : f64) by apply n0_num.
      destruct (wrap64_range lm x Fx) as [A B]. split; [exact A|]. split; [exact B|].
      destruct (wrap64_turn lm x Fx) as (k & K). exists (- k)%Z. rewrite opp_IZR.
      replace (B2R x + 2 * - IZR k * PI) with (B2R x - 2 * IZR k * PI) by ring. exact K.
  Qed.
End F.

Lemma pi_val : Rabs (B2R f64_pi - PI) <= bpow radix2 (-52).
Proof. eapply Rle_trans; [apply pi64_near|]. unfold u64. change (-52)%Z with (-53 + 1)%Z. rewrite bpow2_S. lra. Qed.

(** A library that rounds the exact values to multiples of 2^-52. *)
Definition grid (x : R) : f64 := f64_of (Znearest (fun z => negb (Z.even z)) (x * 2 ^ 52)) (-52).
Lemma grid_ok x : Rabs x <= 1 -> is_finite (grid x) = true /\ Rabs (B2R (grid x) - x) <= bpow radix2 (-52).
Proof.
  intros Hx. unfold grid, f64_of. set (z := Znearest _ _).
  assert (Z : Rabs (x * 2 ^ 52 - IZR z) <= / 2) by apply Znearest_half.
  apply Rabs_le_inv in Z. apply Rabs_le_inv in Hx.
  assert (P : 2 ^ 52 = 4503599627370496) by (simpl; lra). rewrite P in Z.
  assert (Zb : (Z.abs z < 2 ^ 53)%Z).
  { apply lt_IZR. rewrite abs_IZR. apply Rabs_lt. change (IZR (2 ^ 53)) with 9007199254740992. lra. }
  pose proof (binary_normalize_correct 53 1024 _ _ mode_NE z (-52) false) as Q. cbv zeta in Q.
  rewrite rnd64_id in Q by (apply fmt64_F2R; lia).
  assert (E : F2R (Float radix2 z (-52)) = IZR z / 4503599627370496) by (unfold F2R; simpl; lra).
  rewrite Rlt_bool_true in Q.
  - destruct Q as (Q1 & Q2 & _). split; [exact Q2|]. rewrite Q1, E. apply Rabs_le. simpl (bpow radix2 (-52)). lra.
  - apply (Rlt_trans _ (bpow radix2 10)); [|apply bpow_lt; lia]. rewrite E. simpl (bpow radix2 10). apply Rabs_lt. lra.
Qed.
Definition lm_grid : libm :=
  {| lm_sin := fun x => grid (sin (B2R x)); lm_cos := fun x => grid (cos (B2R x)); lm_tan := fun x => x; lm_asin := fun x => x; lm_pow := fun x _ => x |}.
Lemma accurate_ex : accurate lm_grid.
Proof.
  intros a _. split; apply grid_ok; apply Rabs_le; [apply COS_bound|apply SIN_bound].
Qed.

(** An aircraft at 250 ft/s with a speed limit of 200 to 400 ft/s: 100 steps of up to one second. *)
Lemma fly_num_ex : fly_error 41101 1 400 1 100 100 <= 1 / 1000.
Proof.
  unfold fly_error, step_error. replace (INR 100) with 100 by (simpl; lra).
  assert (P7 : bpow radix2 (-700) <= / 10 ^ 15).
  { apply (Rle_trans _ (bpow radix2 (-50))); [apply bpow_le; lia|simpl; lra]. }
  simpl (bpow radix2 (-48)). simpl (10 ^ 15) in P7. lra.
Qed.
Lemma fl_f32 (z : Z) (r : R) m e : B2SF (f64_f32 (fl z 1)) = SpecFloat.S754_finite false m e -> F2R (Float radix2 (Zpos m) e) = r ->
  is_finite (f64_f32 (fl z 1)) = true /\ B2R (f64_f32 (fl z 1)) = r.
Proof.
  intros H <-. split; [|rewrite (B2R_of _ _ _ _ H); reflexivity].
  destruct (f64_f32 (fl z 1)); cbn in H; try discriminate. reflexivity.
Qed.
Lemma fl_val (z : Z) p (r : R) s m e : B2SF (fl z p) = SpecFloat.S754_finite s m e -> F2R (Float radix2 (cond_Zopp s (Zpos m)) e) = r ->
  is_finite (fl z p) = true /\ B2R (fl z p) = r.
Proof.
  intros H <-. split; [|rewrite (B2R_of _ _ _ _ H); reflexivity].
  destruct (fl z p); cbn in H; try discriminate. reflexivity.
Qed.
Ltac flv := first [eapply fl_f32 | eapply fl_val]; [vm_compute; reflexivity|unfold F2R; cbn; lra].
Lemma flies_mono E E' s p : E <= E' -> flies E s p -> flies E' s p.
Proof.
  intros Le. unfold flies. destruct s as [|x [|y [|hd [|v [|? ?]]]]]; try tauto.
  intros (F & A & B & (k & K) & D). split; [exact F|]. split; [lra|]. split; [lra|]. split; [exists k; lra|lra].
Qed.
Lemma fly_ex (lm : libm) (w : world f64) l : accurate lm -> length l = 100%nat -> Forall (fly_ok 1) l ->
  let a := dubins2d_aircraft (N := F64 lm) 0 "Euler" (fl 200 1) (fl 400 1) (fl (-1) 1) (fl 1 1) (fl (-100) 1) (fl 100 1)
    (fl 0 1) (fl 0 1) (fl 0 1) (fl 200 1) in
  exists e s, run (N := F64 lm) w (set_state a (A1 [fl 1000 1; fl 500 1; fl 3 1; fl 250 1])) (map fly_act l) = Ok e /\ e_state e = A1 s /\
    flies (1 / 1000) s (fly {| v_lo := 200; v_hi := 400; r_lo := -1; r_hi := 1; a_lo := -100; a_hi := 100 |}
      {| px := 1000; py := 500; phead := 3; pv := 250 |} (map fly_num l)).
Proof.
  intros Ac Ll Fo. cbv zeta.
  assert (N1 : is_finite (f64_f32 (fl 200 1)) = true /\ B2R (f64_f32 (fl 200 1)) = 200) by flv.
  assert (N2 : is_finite (f64_f32 (fl 400 1)) = true /\ B2R (f64_f32 (fl 400 1)) = 400) by flv.
  assert (N3 : is_finite (fl 1000 1) = true /\ B2R (fl 1000 1) = 1000) by flv.
  assert (N4 : is_finite (fl 500 1) = true /\ B2R (fl 500 1) = 500) by flv.
  assert (N5 : is_finite (fl 3 1) = true /\ B2R (fl 3 1) = 3) by flv.
  assert (N6 : is_finite (fl 250 1) = true /\ B2R (fl 250 1) = 250) by flv.
  assert (M1 : is_finite (fl (-1) 1) = true /\ B2R (fl (-1) 1) = -1) by flv.
  assert (M2 : is_finite (fl 1 1) = true /\ B2R (fl 1 1) = 1) by flv.
  assert (M3 : is_finite (fl (-100) 1) = true /\ B2R (fl (-100) 1) = -100) by flv.
  assert (M4 : is_finite (fl 100 1) = true /\ B2R (fl 100 1) = 100) by flv.
  assert (W : forall a r, is_finite a = true /\ B2R a = r -> Rabs r <= 1024 -> within 100 a).
  { intros a r [F <-] H. split; [exact F|]. eapply Rle_trans; [exact H|]. apply (bpow_le radix2 10). lia. }
  assert (T : forall k : R, k <= 2 ^ 20 -> k <= bpow radix2 99).
  { intros k H. eapply Rle_trans; [exact H|]. replace (2 ^ 20) with (bpow radix2 20) by (simpl; lra). apply bpow_le. lia. }
  pose proof fly_num_ex as Er. rewrite <- Ll in Er.
  destruct (fly_main lm w (fl 200 1) (fl 400 1) (fl (-1) 1) (fl 1 1) (fl (-100) 1) (fl 100 1) 0 41101 1 400 1 100
    (fl 0 1) (fl 0 1) (fl 0 1) (fl 200 1) (fl 1000 1) (fl 500 1) (fl 3 1) (fl 250 1) l) as (e & s & R & Es & Fs); auto; try lia; try (simpl in Er; lra).
  - repeat (constructor; [eapply W; [eassumption|apply Rabs_le; lra]|]). constructor.
  - repeat (constructor; [first [rewrite (proj2 N1) | rewrite (proj2 N2) | rewrite (proj2 N6)]; apply Rabs_le; lra|]). constructor.
  - repeat (constructor; [first [rewrite (proj2 M1) | rewrite (proj2 M2)]; apply Rabs_le; lra|]). constructor.
  - repeat (constructor; [first [rewrite (proj2 M3) | rewrite (proj2 M4)]; apply Rabs_le; lra|]). constructor.
  - rewrite Ll. replace (INR 100) with 100 by (simpl; lra).
    repeat (constructor; [first [rewrite (proj2 N3) | rewrite (proj2 N4) | rewrite (proj2 N5)]; rewrite Rabs_pos_eq; lra|]). constructor.
  - apply T. simpl. lra.
  - apply T. simpl. lra.
  - exists e, s. split; [exact R|]. split; [exact Es|]. rewrite (proj2 N1), (proj2 N2), (proj2 N3), (proj2 N4), (proj2 N5), (proj2 N6),
      (proj2 M1), (proj2 M2), (proj2 M3), (proj2 M4) in Fs. eapply flies_mono; [|exact Fs]. exact Er.
Qed.
Lemma wrap_ex : let d := dubins2d_dyn (N := F64 lm0) (fl 200 1) (fl 400 1) 0 "Euler" in
  rmap (fun s => match s with A1 l => map (fun a => B2SF a) l | A0 _ => [] end) (wrap_angles (N := F64 lm0) d (A1 [fl 7 1; fl 7 1; fl 7 1; fl 7 1])) =
  Ok (map (fun a => B2SF a) [fl 7 1; fl 7 1; fl 7168146928204138 10000000000000000; fl 7 1]).
Proof. vm_compute. reflexivity. Qed.
Lemma fly_ok_ex : Forall (fly_ok 1) (repeat (fl 1 1, fl 2 1, fl 5 1) 100).
Proof.
  assert (M2 : is_finite (fl 1 1) = true /\ B2R (fl 1 1) = 1) by flv.
  apply Forall_forall. intros p Hp. apply repeat_spec in Hp. subst p. unfold fly_ok, within. cbn [fst snd]. rewrite (proj2 M2), Rabs_R1.
  split; [split; [apply M2|apply (bpow_le radix2 0); lia]|]. split; [lra|]. split; vm_compute; reflexivity.
Qed.
