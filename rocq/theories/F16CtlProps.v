(** Corollaries on the controller and closed loop (C56, C57). *)
From Coq Require Import String List ZArith Reals Lra Lia Bool.
From Flocq Require Import Core.Core IEEE754.BinarySingleNaN.
From Verif Require Import PyBase Num NumOrdLemmas XReal Float64 XTac Aero Morelli F16 F16Mem SpecF16
  SpecF16Ctl AeroLemmas F16Lemmas F16Lemmas2 F16Props F16Ctl.
Import List ListNotations.
Local Open Scope R_scope.
Local Hint Extern 0 (Num f64) => match goal with lm : libm |- _ => exact (F64 lm) end
  : typeclass_instances.
Local Hint Extern 0 (Num xr) => exact (XR Fin) : typeclass_instances.

Lemma clamp_inside lo hi v : lo <= v <= hi -> clamp lo hi v = v.
Proof.
  intros H. unfold clamp, Rmin. destruct (Rle_dec hi v); unfold Rmax; destruct (Rle_dec _ _); lra.
Qed.

Lemma controller_trim rest nz ps ny :
  get_u_deg (map Fin [nz; ps; ny; 0]) (closed_state trim 0 0 0 rest)
  = Ok (map Fin [0; 0; 0; 0; 0; 0; 0; 0], control_of trim_surfaces).
Proof.
  rewrite (get_u_deg_fin trim 0 0 0 rest _ 0) by (cbn; lia || reflexivity).
  unfold throttle, elevator, aileron, rudder, control_of. cbn [trim trim_surfaces
    a_alpha a_beta a_q a_p a_r s_thr s_el s_ail s_rdr map].
  rewrite !clamp_inside by lra. fin_list.
  replace (0.0389 - 0.0389) with 0 by ring.
  apply f_equal. apply f_equal2; fin_list; lra.
Qed.

(** The float version at the same literals. *)
Lemma controller_trim_f64 (lm : libm) :
  let st : list f64 := [nZ 502; nlit 389 10000; n0; n0; nlit 389 10000; n0; n0; n0; n0; n0; n0; nZ 1000;
     nlit 90567 10000; n0; n0; n0] in
  exists xc ud, get_u_deg [n0; n0; n0; n0] st = Ok (xc, ud) /\
    map B2SF ud = map B2SF [nlit 1395 10000; nlit (-7496) 10000; n0; n0 : f64].
Proof.
  intros st.
  assert (E : match get_u_deg [n0; n0; n0; n0] st with
              | Ok (_, ud) => Some (map B2SF ud) | Err _ => None end
              = Some (map B2SF [nlit 1395 10000; nlit (-7496) 10000; n0; n0 : f64]))
    by (vm_compute; reflexivity).
  destruct (get_u_deg [n0; n0; n0; n0] st) as [[xc ud]|]; [|discriminate].
  exists xc, ud. split; [reflexivity|]. injection E. auto.
Qed.

Definition zeros (n : nat) : list f64 := repeat (B754_zero false) n.
(** Angle of attack 2^1023, pitch rate -2^1023: the elevator is inf - inf. *)
Definition huge : list f64 :=
  [B754_zero false; f64_of 1 1023] ++ zeros 5 ++ [f64_of (-1) 1023] ++ zeros 8.
Lemma controller_nan (lm : libm) : exists u_ref st xc ud,
  Forall (fun v : f64 => is_finite v = true) (u_ref ++ st) /\
  get_u_deg u_ref st = Ok (xc, ud) /\ is_nan (nth 1 ud (B754_zero false : f64)) = true.
Proof.
  exists (zeros 4), huge.
  assert (E : match get_u_deg (zeros 4) huge with
              | Ok (_, ud) => is_nan (nth 1 ud (B754_zero false : f64)) | Err _ => false end = true)
    by (vm_compute; reflexivity).
  destruct (get_u_deg (zeros 4) huge) as [[xc ud]|]; [|discriminate].
  exists xc, ud. split.
  - apply Forall_forall. intros v Hv.
    assert (F : forallb (fun v : f64 => is_finite v) (zeros 4 ++ huge) = true) by (vm_compute; reflexivity).
    rewrite forallb_forall in F. apply F, Hv.
  - split; [reflexivity|exact E].
Qed.

(** The roll rate is not about the stability axis: at trim, yawing at 1 rad/s. *)
Definition yawing : airframe :=
  {| a_vt := 502; a_alpha := 0.0389; a_beta := 0; a_phi := 0; a_theta := 0.0389; a_psi := 0;
     a_p := 0; a_q := 0; a_r := 1; a_pn := 0; a_pe := 0; a_alt := 1000; a_pow := 9.0567 |}.
Lemma roll_rate_off : exists xd urad nz nyr ps,
  controlled_f16 (closed_state yawing 0 0 0 []) (map Fin [0; 0; 0; 0]) "morelli" false
    = Ok (xd, urad, nz, Fin ps, nyr) /\
  ps <> stability_roll_rate (a_p yawing) (a_r yawing) (a_alpha yawing).
Proof.
  pose proof PI2_1 as HP.
  assert (Hc : cos 0.0389 <> 0) by (apply Rgt_not_eq, cos_gt_0; lra).
  destruct (controlled_fin yawing 0 0 0 [] 0 0 0 0 "morelli") as [xd [nz [ny [az [ay [_ E]]]]]];
    try reflexivity; try exact Hc; try (cbn; rewrite ?cos_0; lra).
  do 5 eexists. split; [exact E|].
  unfold stability_roll_rate. cbn [yawing a_p a_r a_alpha].
  replace (0.0389 - 0.0389) with 0 by ring. rewrite sin_0.
  assert (0 < sin 0.0389) by (apply sin_gt_0; lra). lra.
Qed.
