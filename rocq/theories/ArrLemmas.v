(** Lemmas about broadcasting. *)
From Coq Require Import String List Bool Arith ZArith Lia.
From Verif Require Import PyBase Num Arr Spec NumOrdLemmas.
Import ListNotations.

Lemma zipw_length {A B C} (f : A -> B -> C) l m :
  length l = length m -> length (zipw f l m) = length l.
Proof.
  revert m; induction l; destruct m; simpl; intros; try congruence. f_equal; auto.
Qed.

Lemma zipw_nth {A B C} (f : A -> B -> C) l m i :
  nth_error (zipw f l m) i =
  match nth_error l i, nth_error m i with
  | Some x, Some y => Some (f x y)
  | _, _ => None
  end.
Proof.
  revert m i; induction l as [|a l IH]; destruct m as [|b m]; simpl; intros.
  - destruct i; reflexivity.
  - destruct i; reflexivity.
  - destruct i; simpl; [reflexivity|]. destruct (nth_error l i); reflexivity.
  - destruct i; simpl; [reflexivity|]. apply IH.
Qed.

Lemma bnth_A1 {A} (l : list A) i :
  length l <> 1 -> bnth (A1 l) i = nth_error l i.
Proof. destruct l as [|x [|y l]]; simpl; intros; try reflexivity. congruence. Qed.

Lemma len1 {A} (l : list A) : length l = 1 -> exists x, l = [x].
Proof. destruct l as [|x [|y l]]; simpl; try discriminate. eauto. Qed.

Lemma map_nth_error' {A B} (f : A -> B) l i :
  nth_error (map f l) i = option_map f (nth_error l i).
Proof. revert i; induction l; destruct i; simpl; auto. Qed.

Lemma bnth_map {A B} (f : A -> B) l i :
  bnth (A1 (map f l)) i = option_map f (bnth (A1 l) i).
Proof.
  destruct l as [|x [|y l]]; simpl; try reflexivity.
  - destruct i; reflexivity.
  - destruct i; simpl; [reflexivity|]. destruct i; simpl; [reflexivity|]. apply map_nth_error'.
Qed.

Lemma bnth_amap {A B} (f : A -> B) a i :
  bnth (amap f a) i = option_map f (bnth a i).
Proof. destruct a; [reflexivity|]. apply bnth_map. Qed.

(** The elements of a broadcast operation. *)
Lemma bnth_bmap2 {A B C} (f : A -> B -> C) a b c i :
  bmap2 f a b = Ok c ->
  bnth c i = match bnth a i, bnth b i with
             | Some x, Some y => Some (f x y)
             | _, _ => None
             end.
Proof.
  destruct a as [x|l], b as [y|m]; unfold bmap2; intros H.
  - injection H as <-. reflexivity.
  - injection H as <-. rewrite bnth_map. change (bnth (A0 x) i) with (Some x).
    destruct (bnth (A1 m) i); reflexivity.
  - injection H as <-. rewrite bnth_map. change (bnth (A0 y) i) with (Some y).
    destruct (bnth (A1 l) i); reflexivity.
  - destruct (Nat.eqb (length l) (length m)) eqn:E.
    + apply Nat.eqb_eq in E. injection H as <-.
      destruct (Nat.eq_dec (length l) 1) as [E1|E1].
      * destruct (len1 l E1) as [x ->]. rewrite E1 in E. symmetry in E.
        destruct (len1 m E) as [y ->]. reflexivity.
      * rewrite !bnth_A1 by (rewrite ?zipw_length; congruence). apply zipw_nth.
    + apply Nat.eqb_neq in E.
      destruct l as [|x [|x' l]].
      * destruct m as [|y [|y' m]]; [simpl in E; congruence| |discriminate].
        injection H as <-. destruct i; reflexivity.
      * simpl in H. injection H as <-. rewrite bnth_map.
        change (bnth (A1 [x]) i) with (Some x). destruct (bnth (A1 m) i); reflexivity.
      * destruct m as [|y [|y' m]]; [discriminate| |discriminate].
        change (Ok (A1 (map (fun x => f x y) (x :: x' :: l))) = Ok c) in H.
        assert (H' : c = A1 (map (fun x => f x y) (x :: x' :: l))) by congruence.
        rewrite H', bnth_map. change (bnth (A1 [y]) i) with (Some y).
        destruct (bnth (A1 (x :: x' :: l)) i); reflexivity.
Qed.

Lemma bnth_where {A} (c : arr bool) (x y r : arr A) i :
  np_where c x y = Ok r ->
  bnth r i = match bnth c i, bnth x i, bnth y i with
             | Some b, Some u, Some v => Some (if b then u else v)
             | _, _, _ => None
             end.
Proof.
  unfold np_where, bind. destruct (bmap2 pair x y) as [xy|] eqn:E; [|discriminate].
  intros H. rewrite (bnth_bmap2 _ _ _ _ i H), (bnth_bmap2 _ _ _ _ i E).
  destruct (bnth c i), (bnth x i), (bnth y i); reflexivity.
Qed.

Section NumArrLemmas.
  Context {T : Type} {N : Num T}.

  Lemma bnth_clip (x lo hi r : arr T) i :
    np_clip x lo hi = Ok r ->
    bnth r i = match bnth x i, bnth lo i, bnth hi i with
               | Some a, Some l, Some h => Some (clip1 a l h)
               | _, _, _ => None
               end.
  Proof.
    unfold np_clip, bind. destruct (bmap2 np_max_clip x lo) as [m|] eqn:E; [|discriminate].
    intros H. rewrite (bnth_bmap2 _ _ _ _ i H), (bnth_bmap2 _ _ _ _ i E).
    destruct (bnth x i), (bnth lo i), (bnth hi i); reflexivity.
  Qed.

  Context {O : NumOrd T}.

  Lemma clip_in_limits (x lo hi r : arr T) :
    limits_ok lo hi -> np_clip x lo hi = Ok r -> in_limits lo hi r.
  Proof.
    intros L H i y l h Hy Hl Hh. rewrite (bnth_clip _ _ _ _ i H), Hl, Hh in Hy.
    destruct (bnth x i) as [a|]; [|discriminate]. injection Hy as <-.
    apply clip1_bounds. eapply L; eassumption.
  Qed.
End NumArrLemmas.
