(** [LowLevelController.get_u_deg] on a memory of numpy arrays
    (safe_autonomy_dynamics/external/aerobench/lowlevel/low_level_controller.py 72-111): which
    arrays it allocates and which it writes. A reference is an index into the memory. *)
From Coq Require Import List ZArith Bool.
From Verif Require Import PyBase Num F16.
Import ListNotations.

Section Mem.
  Context {T : Type} {N : Num T}.
  Local Open Scope num_scope.

  Definition mem : Type := list (list T).
  Definition rd (H : mem) (p : nat) : list T := nth p H [].
  Fixpoint wr (H : mem) (p : nat) (v : list T) : mem :=
    match H, p with
    | [], _ => []
    | _ :: H', O => v :: H'
    | a :: H', S p' => a :: wr H' p' v
    end.

  (** Saturation of one entry in place, low_level_controller.py 98-109. *)
  Definition clip_at (H : mem) (p i : nat) (lim : T * T) : mem :=
    wr H p (upd (rd H p) i (py_max (py_min (nth0 (rd H p) i) (snd lim)) (fst lim))).

  (** low_level_controller.py 72-111; [pu], [px]: the arguments u_ref and f16_state; [pxe],
      [pue]: the arrays self.xequil and self.uequil, shared by all controllers. *)
  Definition get_u_deg_mem (H : mem) (pu px pxe pue : nat) : mem * res (nat * nat) :=
    let pd := length H in
    let H := H ++ [rd H px] in
    if Nat.ltb (length (rd H pd)) 13 then (H, Err ValueError)
    else
      let H := wr H pd (map (fun ab => fst ab - snd ab) (combine (firstn 13 (rd H pd)) (rd H pxe))
                        ++ skipn 13 (rd H pd)) in
      if Nat.ltb (length (rd H pd)) 16 then (H, Err IndexError)
      else
        let pc := length H in
        let H := H ++ [map (nth0 (rd H pd)) ctrl_index] in
        let pv := length H in
        let H := H ++ [repeat n0 4] in
        let H := wr H pv (firstn 1 (rd H pv) ++ map (fun k => ldot k (rd H pc)) K_lqr) in
        if Nat.ltb (length (rd H pu)) 4 then (H, Err IndexError)
        else
          let H := wr H pv (upd (rd H pv) 0 (nth0 (rd H pu) 3)) in
          let H := wr H pv (map (fun ab => fst ab + snd ab) (combine (rd H pv) (rd H pue))) in
          let H := clip_at H pv 0 (nZ 0, nZ 1) in
          let H := clip_at H pv 1 (nZ (-25), nZ 25) in
          let H := clip_at H pv 2 (nlit (-215) 10, nlit 215 10) in
          let H := clip_at H pv 3 (nZ (-30), nZ 30) in
          (H, Ok (pc, pv)).
End Mem.
