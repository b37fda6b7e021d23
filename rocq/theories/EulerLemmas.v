(** The fixed step Euler integrator (C62, C63). *)
From Coq Require Import String List ZArith Reals Lra Lia Bool.
From Flocq Require Import Core.Core IEEE754.BinarySingleNaN.
From Verif Require Import PyBase Num NumOrdLemmas XReal Float64 F64Wrap XTac Aero AeroUtil SpecUtil.
Import List ListNotations.
Local Open Scope R_scope.

(** * Any arithmetic *)
Section Gen.
  Context {T : Type} {N : Num T}.

  Lemma euler_init_rejects der (t0 : T) y0 tend h tol :
    (nltb n0 h && nltb t0 tend = false <-> euler_init der t0 y0 tend h tol = Err AssertionError) /\
    (nltb n0 h && nltb t0 tend = true -> exists e, euler_init der t0 y0 tend h tol = Ok e /\
       e_t e = t0 /\ e_y e = y0 /\ e_tend e = tend /\ e_tstep e = h /\ e_running e = true).
  Proof.
    unfold euler_init, py_assert. destruct (nltb n0 h), (nltb t0 tend); cbn;
      (split; [split; intros; try reflexivity; discriminate|intros; try discriminate]).
    eexists. split; [reflexivity|]. repeat split.
  Qed.

  Lemma euler_step_idle (e : euler T) : e_running e = false -> euler_step e = (Ok tt, e).
  Proof. intros H. unfold euler_step. rewrite H. reflexivity. Qed.

  Lemma euler_steps_idle (e : euler T) n : e_running e = false -> euler_steps n e = (Ok tt, e).
  Proof.
    intros H. induction n; [reflexivity|]. cbn [euler_steps].
    rewrite euler_step_idle by exact H. exact IHn.
  Qed.

  Lemma euler_steps_S n (e : euler T) :
    euler_steps (S n) e = match euler_steps n e with
                          | (Ok _, e') => euler_step e'
                          | r => r end.
  Proof.
    revert e. induction n; intros e.
    - cbn. destruct (euler_step e) as [[[]|x] e']; reflexivity.
    - change (euler_steps (S (S n)) e) with
        (match euler_step e with (Ok _, e') => euler_steps (S n) e' | r => r end).
      change (euler_steps (S n) e) with
        (match euler_step e with (Ok _, e') => euler_steps n e' | r => r end) at 1.
      destruct (euler_step e) as [[u|x] e']; [apply IHn|reflexivity].
  Qed.

  (** A step whose derivative function raises leaves time, state and status alone. *)
  Lemma euler_step_raises (e : euler T) x : e_running e = true -> e_der e (e_t e) (e_y e) = Err x ->
    exists e', euler_step e = (Err x, e') /\ e_t e' = e_t e /\ e_y e' = e_y e /\ e_running e' = true /\
      e_tprev e' = Some (e_t e) /\ e_yprev e' = Some (e_y e) /\
      e_tend e' = e_tend e /\ e_tstep e' = e_tstep e /\ e_tol e' = e_tol e /\ e_der e' = e_der e.
  Proof.
    intros Hr Hd. unfold euler_step. rewrite Hr, Hd. eexists. split; [reflexivity|]. repeat split.
  Qed.
End Gen.

(** * Exact arithmetic *)
Section Exact.
  Local Hint Extern 0 (Num xr) => exact (XR Fin) : typeclass_instances.

  Lemma least (P : nat -> Prop) (dec : forall n, {P n} + {~ P n}) n : P n ->
    exists m, P m /\ forall k, (k < m)%nat -> ~ P k.
  Proof.
    induction n as [n IH] using (well_founded_induction lt_wf). intros Hn.
    assert (D : (exists k, (k < n)%nat /\ P k) \/ forall k, (k < n)%nat -> ~ P k).
    { clear IH Hn. induction n; [right; intros; lia|]. destruct IHn as [[k [L H]]|H].
      - left. exists k. split; [lia|exact H].
      - destruct (dec n) as [D|D]; [left; exists n; split; [lia|exact D]|].
        right. intros k L. destruct (Nat.eq_dec k n) as [->|]; [exact D|apply H; lia]. }
    destruct D as [[k [L H]]|H]; [exact (IH k L H)|]. exists n. split; assumption.
  Qed.

  Lemma last_step_exists t0 h tend tol : 0 < h -> exists N, last_step t0 h tend tol N.
  Proof.
    intros Hh.
    assert (U : exists n, (tend - t0 - tol) / h < INR n).
    { set (a := (tend - t0 - tol) / h). exists (Z.to_nat (Z.max 0 (up a))).
      destruct (archimed a) as [A _]. rewrite INR_IZR_INZ, Z2Nat.id by lia.
      pose proof (IZR_le _ _ (Z.le_max_r 0 (up a))). lra. }
    destruct U as [n Hn].
    assert (A : tend <= t0 + INR (S n) * h + tol).
    { apply (Rmult_lt_compat_r h) in Hn; [|exact Hh].
      replace ((tend - t0 - tol) / h * h) with (tend - t0 - tol) in Hn by (field; lra).
      rewrite S_INR. lra. }
    destruct (least (fun k => tend <= t0 + INR (S k) * h + tol)
                (fun k => Rle_dec tend (t0 + INR (S k) * h + tol)) n A) as [m [Hm Hk]].
    exists (S m). split; [lia|]. split; [exact Hm|].
    intros k H. destruct k; [lia|]. apply Rnot_le_lt, Hk. lia.
  Qed.

  Lemma last_step_unique t0 h tend tol N M :
    last_step t0 h tend tol N -> last_step t0 h tend tol M -> N = M.
  Proof.
    intros [N1 [N2 N3]] [M1 [M2 M3]].
    destruct (Nat.lt_trichotomy N M) as [L|[L|L]]; [|exact L|].
    - specialize (M3 N ltac:(lia)). lra.
    - specialize (N3 M ltac:(lia)). lra.
  Qed.

  (** No more steps than the interval needs. *)
  Lemma last_step_bound t0 h tend tol N : 0 < h -> t0 < tend -> 0 <= tol ->
    last_step t0 h tend tol N -> INR N - 1 < (tend - t0) / h.
  Proof.
    intros Hh Ht Ho [N1 [N2 N3]]. apply (Rmult_lt_reg_r h); [exact Hh|].
    replace ((tend - t0) / h * h) with (tend - t0) by (field; lra).
    destruct N as [|[|N]]; [lia|cbn; lra|].
    specialize (N3 (S N) ltac:(lia)). rewrite S_INR. lra.
  Qed.

  Lemma instant_mono t0 h tend tol N k : 0 < h -> t0 < tend -> 0 <= tol ->
    last_step t0 h tend tol N -> (k < N)%nat ->
    instant t0 h tend N k < instant t0 h tend N (S k) <= tend.
  Proof.
    intros Hh Ht Ho [N1 [N2 N3]] Hk. unfold instant.
    destruct (Nat.ltb_spec k N); [|lia].
    assert (A : t0 + INR k * h < tend).
    { destruct k; [cbn; lra|]. specialize (N3 (S k) ltac:(lia)). lra. }
    destruct (Nat.ltb_spec (S k) N).
    - specialize (N3 (S k) ltac:(lia)). rewrite S_INR in *. lra.
    - lra.
  Qed.

  Lemma add_scaled_fin y dt yd : length yd = length y ->
    add_scaled (map Fin y) (Fin dt) (map Fin yd) = Ok (map Fin (advance y dt yd)).
  Proof.
    intros L. unfold add_scaled. rewrite !map_length, L, Nat.eqb_refl.
    apply f_equal. unfold advance. rewrite map_map. revert yd L.
    induction y; intros [|b yd] L; try discriminate; [reflexivity|].
    cbn in *. rewrite IHy by lia. reflexivity.
  Qed.

  Lemma advance_length y dt yd : length yd = length y -> length (advance y dt yd) = length y.
  Proof. intros L. unfold advance. rewrite map_length, combine_length. lia. Qed.

  Section Run.
    Context (f : R -> list R -> list R) (der : xr -> list xr -> res (list xr)).
    Context (t0 h tend tol : R) (y0 : list R) (N : nat).
    Hypothesis Hder : forall t y, length y = length y0 ->
      der (Fin t) (map Fin y) = Ok (map Fin (f t y)) /\ length (f t y) = length y.
    Hypothesis (Hh : 0 < h) (Ht : t0 < tend) (Ho : 0 <= tol).
    Hypothesis HN : last_step t0 h tend tol N.

    Let time := instant t0 h tend N.
    Let val := march f time y0.

    Lemma march_length k : length (val k) = length y0.
    Proof.
      unfold val. induction k; [reflexivity|]. cbn. rewrite advance_length; [exact IHk|].
      apply Hder, IHk.
    Qed.

    Definition prev {A} (g : nat -> A) (k : nat) : option A :=
      match k with O => None | S m => Some (g m) end.

    Lemma euler_run k : (k <= N)%nat ->
      exists e0, euler_init der (Fin t0) (map Fin y0) (Fin tend) (Fin h) (Fin tol) = Ok e0 /\
      euler_steps k e0 = (Ok tt, mk_euler der (Fin h) (Fin (time k)) (map Fin (val k))
        (prev (fun m => map Fin (val m)) k) (prev (fun m => Fin (time m)) k)
        (Fin tend) (Nat.ltb k N) (Fin tol)).
    Proof.
      intros Hk. unfold euler_init, py_assert.
      change (nltb (n0 : xr) (Fin h)) with (Rlt_bool (0 / 1) h).
      change (nltb (Fin t0 : xr) (Fin tend)) with (Rlt_bool t0 tend).
      rewrite !Rlt_bool_true by lra. cbn [bind].
      eexists. split; [reflexivity|].
      destruct HN as [N1 [N2 N3]].
      induction k.
      - cbn [euler_steps prev]. unfold time, instant. destruct (Nat.ltb_spec 0 N); [|lia].
        replace (t0 + INR 0 * h) with t0 by (cbn; ring).
        destruct N; [lia|reflexivity].
      - rewrite euler_steps_S, IHk by lia. unfold euler_step. cbn [e_running e_der e_t e_y e_tstep e_tend e_tol].
        destruct (Nat.ltb_spec k N); [|lia].
        destruct (Hder (time k) (val k) (march_length k)) as [E L]. rewrite E.
        change (nadd (Fin (time k) : xr) (Fin h)) with (Fin (time k + h)).
        change (nadd (Fin (time k + h) : xr) (Fin tol)) with (Fin (time k + h + tol)).
        change (nleb (Fin tend : xr) (Fin (time k + h + tol))) with (Rle_bool tend (time k + h + tol)).
        assert (Et : (if Rle_bool tend (time k + h + tol) then Fin tend else Fin (time k + h)) = Fin (time (S k))).
        { unfold time, instant in *. destruct (Nat.ltb_spec k N) as [_|]; [|lia].
          destruct (Nat.ltb_spec (S k) N) as [L2|L2].
          - specialize (N3 (S k) ltac:(lia)). rewrite S_INR in *. rewrite Rle_bool_false by lra.
            f_equal. ring.
          - assert (N = S k) by lia. subst N. rewrite S_INR in N2. rewrite Rle_bool_true by lra. reflexivity. }
        cbv zeta. rewrite Et.
        change (nsub (Fin (time (S k)) : xr) (Fin (time k))) with (Fin (time (S k) - time k)).
        rewrite add_scaled_fin by exact L.
        change (neqb (Fin (time (S k)) : xr) (Fin tend)) with (Req_bool (time (S k)) tend).
        replace (negb (Req_bool (time (S k)) tend)) with (Nat.ltb (S k) N); [reflexivity|].
        unfold time, instant. destruct (Nat.ltb_spec (S k) N) as [L2|L2].
        + rewrite Req_bool_false; [reflexivity|]. specialize (N3 (S k) ltac:(lia)). lra.
        + rewrite Req_bool_true; reflexivity.
    Qed.
  End Run.

  (** The whole run: [N] steps on the grid, then nothing. *)
  Lemma euler_method f der t0 h tend tol y0 :
    (forall t y, length y = length y0 ->
       der (Fin t) (map Fin y) = Ok (map Fin (f t y)) /\ length (f t y) = length y) ->
    0 < h -> t0 < tend -> 0 <= tol ->
    exists N e0, last_step t0 h tend tol N /\ INR N - 1 < (tend - t0) / h /\
      euler_init der (Fin t0) (map Fin y0) (Fin tend) (Fin h) (Fin tol) = Ok e0 /\
      (forall k, (k < N)%nat -> instant t0 h tend N k < instant t0 h tend N (S k) <= tend) /\
      forall k, exists e, euler_steps k e0 = (Ok tt, e) /\
        e_t e = Fin (instant t0 h tend N (Nat.min k N)) /\
        e_y e = map Fin (march f (instant t0 h tend N) y0 (Nat.min k N)) /\
        e_running e = Nat.ltb k N.
  Proof.
    intros Hd Hh Ht Ho. destruct (last_step_exists t0 h tend tol Hh) as [N HN].
    pose proof (fun k => euler_run f der t0 h tend tol y0 N Hd Hh Ht Ho HN k) as R0.
    destruct (R0 N (le_n N)) as [e0 [E0 EN]].
    exists N, e0. split; [exact HN|]. split; [apply (last_step_bound t0 h tend tol); assumption|].
    split; [exact E0|].
    split; [intros k Hk; apply (instant_mono t0 h tend tol); assumption|].
    intros k. destruct (Nat.le_gt_cases k N) as [L|L].
    - destruct (R0 k L) as [e0' [E0' Ek]]. rewrite E0 in E0'. injection E0' as <-.
      eexists. split; [exact Ek|]. cbn. rewrite Nat.min_l by exact L. repeat split.
    - assert (A : forall m, euler_steps (m + N) e0 = euler_steps N e0).
      { induction m; [reflexivity|].
        cbn [Nat.add]. rewrite euler_steps_S, IHm, EN. apply euler_step_idle.
        cbn. apply Nat.ltb_ge. lia. }
      specialize (A (k - N)%nat). replace (k - N + N)%nat with k in A by lia.
      rewrite A. eexists. split; [exact EN|]. cbn [e_t e_y e_running]. rewrite Nat.min_r by lia.
      rewrite Nat.ltb_irrefl. repeat split. symmetry. apply Nat.ltb_ge. lia.
  Qed.

  (** * Dense output *)
  Lemma combine_map2 {A B} (g : A -> B) (h : A -> B) (l m : list A) :
    combine (map g l) (map h m) = map (fun ab => (g (fst ab), h (snd ab))) (combine l m).
  Proof. revert m. induction l; intros [|b m]; cbn; [reflexivity..|]. rewrite IHl. reflexivity. Qed.

  Lemma dense_line (e : euler xr) tp yp t y s :
    e_tprev e = Some (Fin tp) -> e_yprev e = Some (map Fin yp) -> e_t e = Fin t -> e_y e = map Fin y ->
    length y = length yp -> tp <> t ->
    exists dydt, dense_output e = Ok dydt /\
      dense_eval dydt e (Fin s) = Ok (map Fin (on_line tp yp t y s)).
  Proof.
    intros E1 E2 E3 E4 L Hne. unfold dense_output. rewrite E1, E2, E3, E4.
    eexists. split; [reflexivity|]. unfold dense_eval. rewrite E1, E2.
    apply f_equal. unfold on_line. rewrite map_map.
    clear E2 E4. revert y L. induction yp; intros [|b y] L; try discriminate; [reflexivity|].
    cbn [map combine fst snd].
    apply f_equal2; [|apply IHyp; cbn in L; lia].
    change (nsub (Fin t : xr) (Fin tp)) with (Fin (t - tp)).
    change (nsub (Fin s : xr) (Fin tp)) with (Fin (s - tp)).
    change (nsub (Fin b : xr) (Fin a)) with (Fin (b - a)).
    change (ndiv (Fin (b - a) : xr) (Fin (t - tp))) with (xdiv (Fin (b - a)) (Fin (t - tp))).
    unfold xdiv. rewrite Req_bool_false by lra.
    change (Fin (a + (b - a) / (t - tp) * (s - tp)) = Fin (a + (b - a) * ((s - tp) / (t - tp)))).
    f_equal. field. lra.
  Qed.

End Exact.

(** Runs of the dense output (C63). *)
Section Dense.
  Local Hint Extern 0 (Num xr) => exact (XR Fin) : typeclass_instances.

  Lemma on_line_ends t0 y0 t1 y1 : length y0 = length y1 -> t0 <> t1 ->
    on_line t0 y0 t1 y1 t0 = y0 /\ on_line t0 y0 t1 y1 t1 = y1.
  Proof.
    intros L Ht. unfold on_line. revert y1 L.
    induction y0 as [|a y0 IH]; intros [|b y1] L; try discriminate; [split; reflexivity|].
    destruct (IH y1 ltac:(cbn in L; lia)) as [A B]. cbn [combine map fst snd].
    split; apply f_equal2; try assumption; field; lra.
  Qed.

  (** Right after step [S k] the interpolant is the line of that step, and so it is one step
      later. *)
  Lemma dense_method f der t0 h tend tol y0 :
    (forall t y, length y = length y0 ->
       der (Fin t) (map Fin y) = Ok (map Fin (f t y)) /\ length (f t y) = length y) ->
    0 < h -> t0 < tend -> 0 <= tol ->
    exists N e0, last_step t0 h tend tol N /\
      euler_init der (Fin t0) (map Fin y0) (Fin tend) (Fin h) (Fin tol) = Ok e0 /\
      dense_output e0 = Err AssertionError /\
      forall k, (k < N)%nat -> let time := instant t0 h tend N in let val := march f time y0 in
        exists e dydt, euler_steps (S k) e0 = (Ok tt, e) /\ dense_output e = Ok dydt /\
          (forall s, dense_eval dydt e (Fin s)
                     = Ok (map Fin (on_line (time k) (val k) (time (S k)) (val (S k)) s))) /\
          on_line (time k) (val k) (time (S k)) (val (S k)) (time k) = val k /\
          on_line (time k) (val k) (time (S k)) (val (S k)) (time (S k)) = val (S k) /\
          forall s e', euler_step e = (Ok tt, e') ->
            dense_eval dydt e' (Fin s)
            = Ok (map Fin (on_line (time k) (val k) (time (S k)) (val (S k)) s)).
  Proof.
    intros Hd Hh Ht Ho. destruct (last_step_exists t0 h tend tol Hh) as [N HN].
    pose proof (fun k => euler_run f der t0 h tend tol y0 N Hd Hh Ht Ho HN k) as R0.
    destruct (R0 0%nat (Nat.le_0_l _)) as [e0 [E0 _]].
    exists N, e0. split; [exact HN|]. split; [exact E0|]. split.
    { unfold euler_init, py_assert in E0.
      change (nltb (n0 : xr) (Fin h)) with (Rlt_bool (0 / 1) h) in E0.
      change (nltb (Fin t0 : xr) (Fin tend)) with (Rlt_bool t0 tend) in E0.
      rewrite !Rlt_bool_true in E0 by lra. cbn [bind] in E0. injection E0 as <-. reflexivity. }
    intros k Hk time val.
    destruct (R0 (S k) Hk) as [e0' [E0' Ek]]. rewrite E0 in E0'. injection E0' as <-.
    pose proof (march_length f der t0 h tend y0 N Hd) as ML.
    pose proof (instant_mono t0 h tend tol N k Hh Ht Ho HN Hk) as MT.
    fold time in Ek, ML, MT. fold val in Ek, ML.
    assert (Ne : time k <> time (S k)) by lra.
    match type of Ek with _ = (_, ?e) => set (e1 := e) in Ek end.
    assert (DL : forall s, exists dydt, dense_output e1 = Ok dydt /\
      dense_eval dydt e1 (Fin s) = Ok (map Fin (on_line (time k) (val k) (time (S k)) (val (S k)) s))).
    { intros s. apply dense_line; try reflexivity; [rewrite !ML; reflexivity|exact Ne]. }
    destruct (DL 0) as [dydt [D _]].
    exists e1, dydt. split; [exact Ek|]. split; [exact D|].
    assert (DE : forall s, dense_eval dydt e1 (Fin s)
      = Ok (map Fin (on_line (time k) (val k) (time (S k)) (val (S k)) s))).
    { intros s. destruct (DL s) as [d' [D' X]]. rewrite D in D'. injection D' as <-. exact X. }
    split; [exact DE|].
    destruct (on_line_ends (time k) (val k) (time (S k)) (val (S k))) as [O1 O2];
      [rewrite !ML; reflexivity|exact Ne|].
    split; [exact O1|]. split; [exact O2|].
    intros s e' Es.
    destruct (Nat.lt_ge_cases (S k) N) as [L|L].
    - destruct (R0 (S (S k)) L) as [e0' [E0' Ek']]. rewrite E0 in E0'. injection E0' as <-.
      rewrite euler_steps_S, Ek, Es in Ek'. injection Ek' as ->.
      fold time. fold val.
      unfold dense_eval. cbn [e_tprev e_yprev prev]. apply f_equal.
      unfold dense_output, e1 in D. cbn [e_tprev e_yprev e_t e_y prev] in D. injection D as <-.
      pose proof (ML k) as L1. pose proof (ML (S k)) as L2. rewrite <- L1 in L2.
      change (advance (val k) (time (S k) - time k) (f (time k) (val k))) with (val (S k)).
      revert L2. generalize (val (S k)), (val k). clear - Ne. intros w v L2. unfold on_line.
      rewrite map_map.
      revert v L2. induction w as [|b w IH]; intros [|a v] L2; try discriminate; [reflexivity|].
      cbn [map combine fst snd]. apply f_equal2; [|apply IH; cbn in L2; lia].
      change (nsub (Fin (time (S k)) : xr) (Fin (time k))) with (Fin (time (S k) - time k)).
      change (nsub (Fin s : xr) (Fin (time (S k)))) with (Fin (s - time (S k))).
      change (nsub (Fin b : xr) (Fin a)) with (Fin (b - a)).
      change (ndiv (Fin (b - a) : xr) (Fin (time (S k) - time k)))
        with (xdiv (Fin (b - a)) (Fin (time (S k) - time k))).
      unfold xdiv. rewrite Req_bool_false by lra.
      change (Fin (b + (b - a) / (time (S k) - time k) * (s - time (S k)))
        = Fin (a + (b - a) * ((s - time k) / (time (S k) - time k)))).
      f_equal. field. lra.
    - rewrite euler_step_idle in Es by (unfold e1; cbn [e_running]; apply Nat.ltb_ge; exact L).
      injection Es as <-. apply DE.
  Qed.

  (** A clock whose derivative is 1 + t. *)
  Definition ramp (t : xr) (y : list xr) : res (list xr) := Ok [nadd n1 t].
  Lemma ramp_run : exists e0 e1 e3 dydt,
    euler_init ramp (Fin 0) [Fin 0] (Fin 4) (Fin 1) (Fin 0) = Ok e0 /\
    euler_steps 1 e0 = (Ok tt, e1) /\ dense_output e1 = Ok dydt /\
    dense_eval dydt e1 (Fin 0) = Ok [Fin 0] /\
    euler_steps 2 e1 = (Ok tt, e3) /\ dense_eval dydt e3 (Fin 0) = Ok [Fin 1].
  Proof.
    unfold euler_init, py_assert. cbn -[euler_steps Rdiv]. rewrite !Rlt_bool_true by lra.
    cbn [bind]. do 4 eexists. split; [reflexivity|].
    split.
    { cbn. xstep. reflexivity. }
    split.
    { cbn. xstep. reflexivity. }
    split.
    { cbn. repeat (f_equal; []). f_equal. lra. }
    split.
    { cbn. xstep. reflexivity. }
    cbn. f_equal. f_equal. f_equal. lra.
  Qed.

  (** The derivative function raises in the second step. *)
  Definition flaky (t : xr) (y : list xr) : res (list xr) :=
    if nltb n0 t then Err ValueError else Ok [n1].
  Lemma flaky_run : exists e0 e1 e2,
    euler_init flaky (Fin 0) [Fin 0] (Fin 4) (Fin 1) (Fin 0) = Ok e0 /\
    euler_step e0 = (Ok tt, e1) /\ euler_step e1 = (Err ValueError, e2) /\
    dense_output e2 = Ok [NaN].
  Proof.
    unfold euler_init, py_assert. cbn -[euler_step Rdiv]. rewrite !Rlt_bool_true by lra.
    cbn [bind]. do 3 eexists. split; [reflexivity|].
    split.
    { unfold euler_step, flaky. cbn. xstep. reflexivity. }
    split.
    { unfold euler_step. cbn [e_running e_der e_t e_y]. cbn. xstep. reflexivity. }
    cbn. xstep. reflexivity.
  Qed.
End Dense.
