(** [get_u_deg] leaves every existing array as it was (C56). *)
From Coq Require Import List ZArith Bool Lia.
From Verif Require Import PyBase Num F16 F16Mem.
Import ListNotations.

Section Mem.
  Context {T : Type} {N : Num T}.

  Lemma rd_old (H l : mem (T := T)) p : p < length H -> rd (H ++ l) p = rd H p.
  Proof. intros. unfold rd. apply app_nth1. assumption. Qed.
  Lemma rd_new (H l : mem (T := T)) k : rd (H ++ l) (length H + k) = rd l k.
  Proof. unfold rd. rewrite app_nth2_plus. reflexivity. Qed.
  Lemma wr_new (H l : mem (T := T)) k v : wr (H ++ l) (length H + k) v = H ++ wr l k v.
  Proof. induction H; cbn; [reflexivity|]. rewrite IHlist. reflexivity. Qed.
  Lemma clip_new (H l : mem (T := T)) k i lim :
    clip_at (H ++ l) (length H + k) i lim = H ++ clip_at l k i lim.
  Proof. unfold clip_at. rewrite rd_new. apply wr_new. Qed.

  (** The arguments and the two shared trim arrays exist before the call; afterwards all arrays that existed
      are unchanged, the two results are new arrays, distinct, with the values of [get_u_deg]. *)
  Lemma get_u_deg_mem_spec (H : mem) pu px pxe pue :
    pu < length H -> px < length H -> pxe < length H -> pue < length H ->
    rd H pxe = xequil -> rd H pue = uequil ->
    exists new r, get_u_deg_mem H pu px pxe pue = (H ++ new, r) /\
      match get_u_deg (rd H pu) (rd H px) with
      | Err e => r = Err e
      | Ok (xc, ud) => exists pc pv, r = Ok (pc, pv) /\ length H <= pc /\ length H <= pv /\ pc <> pv /\
          rd (H ++ new) pc = xc /\ rd (H ++ new) pv = ud
      end.
  Proof.
    intros Hu Hx Hxe Hue Exe Eue.
    unfold get_u_deg_mem, get_u_deg.
    set (st := rd H px). set (ur := rd H pu).
    assert (L1 : forall a : list T, length (H ++ [a]) = length H + 1) by (intros; rewrite app_length; reflexivity).
    replace (length H) with (length H + 0) by lia.
    rewrite rd_new. cbn [rd nth].
    change (rd [st] 0) with st.
    destruct (Nat.ltb_spec (length st) 13) as [H13|H13].
    { exists [st]. eexists. split; reflexivity. }
    rewrite wr_new. cbn [wr]. rewrite rd_new. rewrite rd_old by assumption. rewrite Exe.
    set (xd := map (fun ab => (fst ab - snd ab)%num) (combine (firstn 13 st) xequil) ++ skipn 13 st).
    change (rd [xd] 0) with xd.
    assert (Lx : length xd = length st).
    { unfold xd. rewrite app_length, map_length, combine_length, firstn_length, skipn_length.
      cbn [xequil length]. lia. }
    rewrite Lx.
    destruct (Nat.ltb_spec (length st) 16) as [H16|H16].
    { exists [xd]. eexists. split; reflexivity. }
    rewrite L1.
    set (xc := map (nth0 xd) ctrl_index).
    replace (length ((H ++ [xd]) ++ [xc])) with (length H + 2) by (rewrite !app_length; cbn; lia).
    rewrite <- !app_assoc. cbn [app].
    rewrite !rd_new, wr_new. cbn [rd nth wr]. rewrite rd_old by assumption. fold ur.
    destruct (Nat.ltb_spec (length ur) 4) as [H4|H4].
    { eexists. eexists. split; reflexivity. }
    rewrite !rd_new, wr_new. rewrite rd_new, rd_old by assumption. rewrite Eue. rewrite wr_new.
    rewrite !clip_new.
    eexists. eexists. split; [reflexivity|].
    exists (length H + 1), (length H + 2). split; [reflexivity|]. split; [lia|]. split; [lia|].
    split; [lia|]. rewrite !rd_new. split; reflexivity.
  Qed.
End Mem.
