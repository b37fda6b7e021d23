(** The Euler integrator in binary64 (C62, C63). *)
From Coq Require Import String List ZArith Reals Lra Lia Bool.
From Flocq Require Import Core.Core IEEE754.BinarySingleNaN.
From Verif Require Import PyBase Num NumOrdLemmas XReal Float64 F64Wrap XTac Aero AeroUtil SpecUtil
  EulerLemmas.
Import List ListNotations.
Local Open Scope R_scope.
Local Hint Extern 0 (Num f64) => match goal with lm : libm |- _ => exact (F64 lm) end
  : typeclass_instances.

(** A sum with a non-negative finite number is not below the other summand, and not nan. *)
Lemma plus64_grows (x h : f64) : is_finite x = true -> is_finite h = true -> 0 <= B2R h ->
  Bleb x (Bplus mode_NE x h) = true /\
  (is_finite (Bplus mode_NE x h) = true \/ Bplus mode_NE x h = B754_infinity false).
Proof.
  intros Fx Fh Hh.
  pose proof (Bplus_correct 53 1024 _ _ mode_NE x h Fx Fh) as Q.
  destruct (Rlt_bool _ _) in Q.
  - destruct Q as [E [F _]]. split; [|left; exact F].
    rewrite Bleb_correct by assumption. rewrite E. apply Rle_bool_true.
    destruct (rnd64_bounds (B2R x) (Rmax (B2R x) (B2R x)) (B2R x)) as [A _];
      [apply B2R_fmt|rewrite Rmax_left by lra; apply B2R_fmt|rewrite Rmax_left by lra; lra|].
    eapply Rle_trans; [exact A|]. apply rnd64_le. lra.
  - destruct Q as [E Hs].
    assert (S : Bsign x = false).
    { destruct (Bsign x) eqn:Sx; [|reflexivity]. exfalso.
      assert (Hn : Bsign h = true) by congruence.
      assert (B2R h <= 0).
      { destruct h as [s|s| |s m e H]; try discriminate; cbn in Hn; subst; cbn; [lra|].
        apply F2R_le_0. cbn. lia. }
      assert (B2R x <= 0).
      { destruct x as [s|s| |s m e H']; try discriminate; cbn in Sx; subst; cbn; [lra|].
        apply F2R_le_0. cbn. lia. }
      (* x + 0 cannot overflow *)
      assert (Z : B2R h = 0) by lra.
      pose proof (Bplus_correct 53 1024 _ _ mode_NE x h Fx Fh) as Q.
      rewrite Z, Rplus_0_r in Q.
      rewrite (round_generic radix2 _ _ (B2R x)) in Q by apply B2R_fmt.
      rewrite Rlt_bool_true in Q by apply (abs_B2R_lt_emax 53 1024).
      destruct Q as [_ [F _]].
      rewrite <- (is_finite_SF_B2SF) in F. rewrite E in F. discriminate. }
    rewrite S in E. cbn in E.
    assert (G : Bplus mode_NE x h = B754_infinity false).
    { destruct (Bplus mode_NE x h) as [s|s| |s m e H]; cbn in E; try discriminate.
      injection E as ->. reflexivity. }
    split; [|right; exact G]. rewrite G.
    destruct x as [s|s| |s m e H]; try discriminate; try destruct s; reflexivity.
Qed.

(** Time never runs backwards and never passes the end. *)
Lemma euler_time_f64 (lm : libm) (e e' : euler f64) :
  is_finite (e_t e) = true -> is_finite (e_tstep e) = true -> is_finite (e_tol e) = true ->
  is_finite (e_tend e) = true ->
  0 < B2R (e_tstep e) -> 0 <= B2R (e_tol e) -> B2R (e_t e) <= B2R (e_tend e) ->
  euler_step e = (Ok tt, e') ->
  is_finite (e_t e') = true /\ B2R (e_t e) <= B2R (e_t e') <= B2R (e_tend e) /\
  (e_running e = true -> (e_running e' = false <-> B2R (e_t e') = B2R (e_tend e))) /\
  e_tstep e' = e_tstep e /\ e_tol e' = e_tol e /\ e_tend e' = e_tend e.
Proof.
  intros Ft Fh Fo Fe Hh Ho Hle. unfold euler_step.
  destruct (e_running e) eqn:Hr.
  2: { intros E. injection E as <-. repeat split; try assumption; try lra; discriminate. }
  destruct (e_der e (e_t e) (e_y e)) as [yd|]; [|discriminate]. cbv zeta.
  set (t1 := if nleb (e_tend e) _ then e_tend e else _).
  destruct (add_scaled _ _ _) as [y|]; [|discriminate].
  intros E. injection E as <-. cbn [e_t e_running e_tstep e_tol e_tend].
  assert (A : is_finite t1 = true /\ B2R (e_t e) <= B2R t1 <= B2R (e_tend e)).
  { unfold t1.
    destruct (plus64_grows (e_t e) (e_tstep e) Ft Fh) as [G1 G2]; [lra|].
    change (nadd (e_t e) (e_tstep e)) with (Bplus mode_NE (e_t e) (e_tstep e)) in *.
    set (s := Bplus mode_NE (e_t e) (e_tstep e)) in *.
    change (nadd s (e_tol e)) with (Bplus mode_NE s (e_tol e)).
    change (nleb (e_tend e) (Bplus mode_NE s (e_tol e))) with (Bleb (e_tend e) (Bplus mode_NE s (e_tol e))).
    destruct (Bleb (e_tend e) (Bplus mode_NE s (e_tol e))) eqn:L; [split; [exact Fe|lra]|].
    destruct G2 as [Fs|Hs].
    2: { exfalso. rewrite Hs in L.
         destruct (e_tol e) as [b|b| |b m ex H]; try discriminate;
           destruct (e_tend e) as [c|c| |c m' ex' H']; try discriminate; try destruct c; discriminate. }
    split; [exact Fs|]. rewrite Bleb_correct in G1 by assumption.
    split; [destruct (Rle_bool_spec (B2R (e_t e)) (B2R s)); [assumption|discriminate]|].
    destruct (plus64_grows s (e_tol e) Fs Fo Ho) as [G3 [G4|G4]].
    - rewrite Bleb_correct in L, G3 by assumption.
      destruct (Rle_bool_spec (B2R s) (B2R (Bplus mode_NE s (e_tol e)))); [|discriminate].
      destruct (Rle_bool_spec (B2R (e_tend e)) (B2R (Bplus mode_NE s (e_tol e)))); [discriminate|]. lra.
    - rewrite G4 in L. exfalso.
      destruct (e_tend e) as [c|c| |c m' ex' H']; try discriminate; try destruct c; discriminate. }
  destruct A as [A1 A2]. split; [exact A1|]. split; [exact A2|].
  split; [|repeat split]. intros _.
  change (neqb t1 (e_tend e)) with (Beqb t1 (e_tend e)). rewrite Beqb_correct by assumption.
  destruct (Req_bool_spec (B2R t1) (B2R (e_tend e))); cbn; split; intros; congruence.
Qed.

Lemma euler_times_f64 (lm : libm) n : forall (e e' : euler f64),
  is_finite (e_t e) = true -> is_finite (e_tstep e) = true -> is_finite (e_tol e) = true ->
  is_finite (e_tend e) = true ->
  0 < B2R (e_tstep e) -> 0 <= B2R (e_tol e) -> B2R (e_t e) <= B2R (e_tend e) ->
  euler_steps n e = (Ok tt, e') ->
  is_finite (e_t e') = true /\ B2R (e_t e) <= B2R (e_t e') <= B2R (e_tend e).
Proof.
  induction n; intros e e' Ft Fh Fo Fe Hh Ho Hle E.
  - injection E as <-. split; [exact Ft|lra].
  - cbn [euler_steps] in E. destruct (euler_step e) as [[[]|x] e1] eqn:E1; [|discriminate].
    destruct (euler_time_f64 lm e e1 Ft Fh Fo Fe Hh Ho Hle E1) as [F1 [B1 [_ [S1 [S2 S3]]]]].
    destruct (IHn e1 e') as [F2 B2]; rewrite ?S1, ?S2, ?S3; try assumption; try lra.
    rewrite S3 in B2. split; [exact F2|]. lra.
Qed.

(** Half a second does not move a clock that reads 2^53 seconds. *)
Definition late : f64 := @nZ f64 (F64 lm0) (2 ^ 53).
Definition late_end : f64 := @nZ f64 (F64 lm0) (2 ^ 53 + 2).
Definition half : f64 := fl 1 2.

Lemma late_step : B2SF (Bplus mode_NE late half) = B2SF late /\
  Bleb late_end (Bplus mode_NE late (fl 1 1000000000)) = false /\
  Beqb late late_end = false /\ Bltb late late_end = true /\ Bltb (B754_zero false) half = true.
Proof. vm_compute. repeat split. Qed.

Lemma euler_stuck (lm : libm) (der : f64 -> list f64 -> res (list f64)) (y0 : list f64) :
  (forall t y, length y = length y0 -> exists yd, der t y = Ok yd /\ length yd = length y) ->
  exists (t0 h tend : f64) e0,
    is_finite t0 = true /\ is_finite tend = true /\ B2R h = 1 / 2 /\
    euler_init der t0 y0 tend h (nlit 1 1000000000) = Ok e0 /\
    forall n, exists e, euler_steps n e0 = (Ok tt, e) /\ e_t e = t0 /\ e_running e = true.
Proof.
  intros Hd. exists late, half, late_end.
  destruct late_step as [L1 [L2 [L3 [L4 L5]]]].
  apply B2SF_inj in L1.
  set (tol := fl 1 1000000000) in *.
  exists (mk_euler der half late y0 None None late_end true tol).
  split; [reflexivity|]. split; [reflexivity|]. split.
  { replace (B2R half) with (SF2R radix2 (B2SF half)) by apply SF2R_B2SF.
    replace (B2SF half) with (SpecFloat.S754_finite false 4503599627370496 (-53)) by (vm_compute; reflexivity).
    unfold SF2R, F2R. cbn. lra. }
  split.
  { unfold euler_init, py_assert. change (nltb n0 half) with (Bltb (@nZ f64 (F64 lm0) 0) half).
    replace (Bltb (@nZ f64 (F64 lm0) 0) half) with true by (vm_compute; reflexivity).
    change (nltb late late_end) with (Bltb late late_end). rewrite L4. reflexivity. }
  assert (G : forall n y yp tp, length y = length y0 ->
    exists e, euler_steps n (mk_euler der half late y yp tp late_end true tol) = (Ok tt, e) /\
      e_t e = late /\ e_running e = true).
  { induction n; intros y yp tp Ly; [eexists; repeat split|].
    cbn [euler_steps]. unfold euler_step. cbn [e_running e_der e_t e_y e_tstep e_tend e_tol].
    destruct (Hd late y Ly) as [yd [E Lyd]]. rewrite E.
    change (nadd late half) with (Bplus mode_NE late half). rewrite L1.
    change (nadd late tol) with (Bplus mode_NE late tol).
    change (nleb late_end (Bplus mode_NE late tol)) with (Bleb late_end (Bplus mode_NE late tol)).
    rewrite L2. cbv zeta.
    unfold add_scaled at 1. rewrite map_length, Lyd, Nat.eqb_refl.
    change (neqb late late_end) with (Beqb late late_end). rewrite L3. cbn [negb].
    apply IHn. rewrite map_length, combine_length, map_length. lia. }
  intros n. apply G. reflexivity.
Qed.

(** The interpolant's right end is off by an ulp. *)
Definition fast (t : f64) (y : list f64) : res (list f64) := Ok [fl 87 10].
Definition first_step : res unit * euler f64 :=
  euler_step (N := F64 lm0) (mk_euler fast (fl 1 10) (fl 1 10) [fl 3 10] None None (fl 10 1) true
    (fl 1 1000000000)).
Lemma dense_end_off : exists e dydt y,
  first_step = (Ok tt, e) /\ dense_output (N := F64 lm0) e = Ok dydt /\
  dense_eval (N := F64 lm0) dydt e (e_t e) = Ok [y] /\
  Forall (fun v => is_finite v = true) (y :: e_y e) /\ [B2SF y] <> map B2SF (e_y e).
Proof.
  destruct first_step as [r e] eqn:E.
  assert (C : match r, dense_output (N := F64 lm0) e with
     | Ok tt, Ok d => match dense_eval (N := F64 lm0) d e (e_t e) with
         | Ok [y] => forallb (fun v => is_finite v) (y :: e_y e) &&
                     negb (match e_y e with [z] => Beqb y z | _ => true end)
         | _ => false end
     | _, _ => false end = true).
  { replace r with (fst first_step) by (rewrite E; reflexivity).
    replace e with (snd first_step) by (rewrite E; reflexivity). vm_compute. reflexivity. }
  destruct r as [[]|]; [|discriminate].
  destruct (dense_output (N := F64 lm0) e) as [d|] eqn:D; [|discriminate].
  destruct (dense_eval (N := F64 lm0) d e (e_t e)) as [[|y [|]]|] eqn:V; try discriminate.
  apply andb_prop in C. destruct C as [C1 C2].
  exists e, d, y. split; [reflexivity|]. split; [exact D|]. split; [exact V|].
  split; [apply Forall_forall; apply forallb_forall; exact C1|].
  destruct (e_y e) as [|z [|]]; try discriminate.
  intros Q. injection Q as Q. apply B2SF_inj in Q. subst z.
  cbn in C1. apply andb_prop in C1. destruct C1 as [F _].
  rewrite Beqb_correct in C2 by exact F. rewrite Req_bool_true in C2; [discriminate|reflexivity].
Qed.
