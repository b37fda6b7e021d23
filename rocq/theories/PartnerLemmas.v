(** Partners do not influence motion and are read by reference. *)
From Coq Require Import String List Bool Arith ZArith Lia.
From Verif Require Import PyBase Num Arr BaseModel Partner SpecPartner.
Import ListNotations.

Section All.
  Context {T : Type} {N : Num T}.

  Lemma put_len (l : list (craft T)) : forall i c, length (put l i c) = length l.
  Proof. induction l; intros [|i] c; cbn; auto. Qed.
  Lemma put_nth (l : list (craft T)) : forall i k c, nth_error (put l i c) k =
    if Nat.eqb i k then (match nth_error l i with Some _ => Some c | None => None end) else nth_error l k.
  Proof.
    induction l as [|b l IH]; intros i k c.
    - cbn. destruct i, k; cbn; auto. destruct (Nat.eqb i k); auto.
    - destruct i, k; cbn; auto.
  Qed.
  Lemma put_ents (l : list (craft T)) : forall i c d, nth_error l i = Some d -> c_entity c = c_entity d ->
    map c_entity (put l i c) = map c_entity l.
  Proof.
    induction l as [|b l IH]; intros [|i] c d E H; cbn in *; auto; [injection E as ->; rewrite H; reflexivity|].
    rewrite (IH i c d E H). reflexivity.
  Qed.
  (** The entities depend on the entities alone. *)
  Lemma put_map (l l' : list (craft T)) : map c_entity l = map c_entity l' -> forall i c c', c_entity c = c_entity c' ->
    map c_entity (put l i c) = map c_entity (put l' i c').
  Proof.
    revert l'. induction l as [|b l IH]; intros [|b' l'] H [|i] c c' E; try discriminate; cbn in *; auto; injection H as H1 H2; [congruence|].
    rewrite H1, (IH l' H2 i c c' E). reflexivity.
  Qed.
  Lemma nth_ents (l l' : list (craft T)) i : map c_entity l = map c_entity l' ->
    option_map c_entity (nth_error l i) = option_map c_entity (nth_error l' i).
  Proof. intros H. rewrite <- !nth_error_map. congruence. Qed.

  Lemma motion_gen (w : world T) prog : forall fs fs', map c_entity fs = map c_entity fs' ->
    map c_entity (fold_left (pexec w) prog fs) = map c_entity (fold_left (pexec w) (unregistered prog) fs').
  Proof.
    induction prog as [|s prog IH]; intros fs fs' H; [exact H|].
    destruct s as [e|i h a|i v|i j]; cbn [fold_left unregistered filter is_register negb]; fold (unregistered prog); apply IH; cbn [pexec].
    - rewrite !map_app, H. reflexivity.
    - pose proof (nth_ents fs fs' i H) as Q. destruct (nth_error fs i), (nth_error fs' i); try discriminate; [|exact H].
      injection Q as Q. apply put_map; [exact H|]. cbn. rewrite Q. reflexivity.
    - pose proof (nth_ents fs fs' i H) as Q. destruct (nth_error fs i), (nth_error fs' i); try discriminate; [|exact H].
      injection Q as Q. apply put_map; [exact H|]. cbn. rewrite Q. reflexivity.
    - rewrite <- H. destruct (nth_error fs i) as [c|] eqn:E; [|reflexivity]. eapply put_ents; [exact E|reflexivity].
  Qed.
  Lemma motion (w : world T) prog :
    map c_entity (pexec_all w prog) = map c_entity (pexec_all w (unregistered prog)).
  Proof. apply motion_gen. reflexivity. Qed.

  Lemma partner_gen (w : world T) prog i : forall fs, proper (length fs) prog ->
    (forall c, nth_error fs i = Some c -> forall d, nth_error (fold_left (pexec w) prog fs) i = Some d -> c_partner d = latest i prog (c_partner c)) /\
    (nth_error fs i = None -> forall d, nth_error (fold_left (pexec w) prog fs) i = Some d -> c_partner d = latest i prog None).
  Proof.
    induction prog as [|s prog IH]; intros fs P.
    - cbn. split; [intros c E d D; congruence|]. intros E d D. congruence.
    - destruct s as [e|k h a|k v|k j]; cbn [fold_left proper latest] in *.
      + cbn [pexec]. destruct (IH (fs ++ [{| c_entity := e; c_partner := None |}])) as (I1 & I2).
        { rewrite app_length. cbn. rewrite Nat.add_1_r. exact P. }
        split.
        * intros c E. apply I1. rewrite nth_error_app1; [exact E|]. apply nth_error_Some. congruence.
        * intros E. apply nth_error_None in E. destruct (Nat.eq_dec i (length fs)) as [->|Ne].
          -- refine (I1 {| c_entity := e; c_partner := None |} _). rewrite nth_error_app2, Nat.sub_diag by lia. reflexivity.
          -- apply I2. apply nth_error_None. rewrite app_length. cbn. lia.
      + destruct P as [Hk P]. cbn [pexec]. destruct (nth_error fs k) as [q|] eqn:K; [|apply nth_error_None in K; lia].
        set (c' := {| c_entity := _; c_partner := c_partner q |}). destruct (IH (put fs k c')) as (I1 & I2); [rewrite put_len; exact P|].
        rewrite put_nth, K in I1, I2. destruct (Nat.eqb_spec k i) as [->|Ne].
        * rewrite K. split; [intros c E; injection E as <-; apply (I1 c' eq_refl)|discriminate].
        * split; assumption.
      + destruct P as [Hk P]. cbn [pexec]. destruct (nth_error fs k) as [q|] eqn:K; [|apply nth_error_None in K; lia].
        set (c' := {| c_entity := _; c_partner := c_partner q |}). destruct (IH (put fs k c')) as (I1 & I2); [rewrite put_len; exact P|].
        rewrite put_nth, K in I1, I2. destruct (Nat.eqb_spec k i) as [->|Ne].
        * rewrite K. split; [intros c E; injection E as <-; apply (I1 c' eq_refl)|discriminate].
        * split; assumption.
      + destruct P as (Hk & Hj & P). cbn [pexec]. destruct (nth_error fs k) as [q|] eqn:K; [|apply nth_error_None in K; lia].
        set (c' := {| c_entity := _; c_partner := Some j |}). destruct (IH (put fs k c')) as (I1 & I2); [rewrite put_len; exact P|].
        rewrite put_nth, K in I1, I2. rewrite (Nat.eqb_sym i k). destruct (Nat.eqb_spec k i) as [->|Ne].
        * rewrite K. split; [intros c E; injection E as <-; apply (I1 c' eq_refl)|discriminate].
        * split; assumption.
  Qed.
  Lemma partner_is (w : world T) prog i c : proper 0 prog -> nth_error (pexec_all w prog) i = Some c ->
    c_partner c = latest i prog None.
  Proof. intros P E. refine (proj2 (partner_gen w prog i [] P) _ c E). destruct i; reflexivity. Qed.

  (** Objects do not disappear. *)
  Lemma count_gen (w : world T) prog : forall fs, length fs <= length (fold_left (pexec w) prog fs).
  Proof.
    induction prog as [|s prog IH]; intros fs; [reflexivity|]. cbn [fold_left]. etransitivity; [|apply IH].
    destruct s; cbn [pexec]; try (destruct (nth_error fs i)); rewrite ?put_len, ?app_length; cbn; lia.
  Qed.
  Lemma latest_ok (w : world T) prog i : forall fs found j, proper (length fs) prog -> (forall k, found = Some k -> k < length fs) ->
    latest i prog found = Some j -> j < length (fold_left (pexec w) prog fs).
  Proof.
    induction prog as [|s prog IH]; intros fs found j P F L; [cbn in *; auto|].
    destruct s as [e|k h a|k v|k q]; cbn [fold_left proper latest] in *.
    - eapply IH; [|..|exact L]; cbn [pexec]; rewrite app_length; cbn; rewrite Nat.add_1_r; [exact P|]. intros k Hk. specialize (F k Hk). lia.
    - destruct P as [Hk P]. eapply IH; [|..|exact L]; cbn [pexec]; destruct (nth_error fs k); rewrite ?put_len; auto.
    - destruct P as [Hk P]. eapply IH; [|..|exact L]; cbn [pexec]; destruct (nth_error fs k); rewrite ?put_len; auto.
    - destruct P as (Hk & Hj & P). eapply IH; [|..|exact L]; cbn [pexec]; destruct (nth_error fs k); rewrite ?put_len; auto;
        intros q'; destruct (Nat.eqb i k); auto; intros E; injection E as <-; exact Hj.
  Qed.

  Lemma partner_view (w : world T) prog i j : proper 0 prog -> i < length (pexec_all w prog) -> latest i prog None = Some j ->
    exists c, nth_error (pexec_all w (unregistered prog)) j = Some c /\
      partner_state (pexec_all w prog) i = Some (e_state (c_entity c)).
  Proof.
    intros P Hi L. assert (Hj : j < length (pexec_all w prog)).
    { apply (latest_ok w prog i [] None j P); [discriminate|exact L]. }
    pose proof (motion w prog) as M. pose proof (f_equal (@length _) M) as ML. rewrite !map_length in ML.
    destruct (nth_error (pexec_all w (unregistered prog)) j) as [c|] eqn:C; [|apply nth_error_None in C; lia].
    exists c. split; [reflexivity|]. unfold partner_state.
    destruct (nth_error (pexec_all w prog) i) as [ci|] eqn:Ci; [|apply nth_error_None in Ci; lia].
    rewrite (partner_is w prog i ci P Ci), L. pose proof (nth_ents _ _ j M) as Q. rewrite C in Q.
    destruct (nth_error (pexec_all w prog) j) as [cj|]; [|discriminate]. cbn in *. congruence.
  Qed.
  Lemma no_partner (w : world T) prog i : proper 0 prog -> latest i prog None = None -> partner_state (pexec_all w prog) i = None.
  Proof.
    intros P L. unfold partner_state. destruct (nth_error (pexec_all w prog) i) as [c|] eqn:C; [|reflexivity].
    rewrite (partner_is w prog i c P C), L. reflexivity.
  Qed.
End All.

From Coq Require Import Reals.
From Verif Require Import PyBase Num Arr BaseModel XReal Dubins Partner SpecPartner.
Local Hint Extern 0 (Num xr) => exact (XR Fin) : typeclass_instances.
Local Open Scope R_scope.
Lemma partner_ex :
  let e v := dubins2d_aircraft 0 "Euler" (Fin 0) (Fin 400) (Fin (-1)) (Fin 1) (Fin (-9)) (Fin 9) (Fin 0) (Fin 0) (Fin 0) (Fin v) in
  let prog := [PNew (e 100); PNew (e 200); PRegister 0 1; PSet 1 (A1 (map Fin [1; 2; 3; 4]))] in
  forall w : world xr, proper 0 prog /\
    partner_state (pexec_all w prog) 0 = Some (A1 (map Fin [1; 2; 3; 4])) /\ partner_state (pexec_all w prog) 1 = None.
Proof. intros e prog w. split; [cbn; lia|]. split; reflexivity. Qed.
