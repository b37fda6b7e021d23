(** A spacecraft with attitude whose rates are single precision (C116). *)
From Coq Require Import String ZArith Reals Bool List Lra Lia.
From Flocq Require Import Core.Core IEEE754.BinarySingleNaN.
From Verif Require Import PyBase Num Arr BaseModel Cwh Utils SixDof Float64 XTac BaseLemmas3 SixDofLemmas SpecCwh SpecSixDof SpecRound SpecFly SpecSingle
  F64Wrap F64Err RoundCwh FlyEx FreshEx SingleRound SingleEx SingleSix.
Import List ListNotations.
Local Open Scope R_scope.

Section W.
  Variables (lm : libm) (w : world f64).
  Local Hint Extern 0 (Num f64) => exact (F64 lm) : typeclass_instances.

  (** Mass 2, moments of inertia 1, 2 and 4, rate limits 1, mean motion 1/1024, thrust in body axes. *)
  Definition box : mat3 f64 :=
    {| m00 := fl 1 1; m01 := fl 0 1; m02 := fl 0 1; m10 := fl 0 1; m11 := fl 2 1; m12 := fl 0 1; m20 := fl 0 1; m21 := fl 0 1; m22 := fl 4 1 |}.
  Definition ship : res (entity f64) :=
    sixdof_spacecraft (fl 2 1) box (NAnum (PyFloat (fl 1 1))) (NAnum (PyFloat (fl 1 1))) (fl 1 1) (fl 8 1) (fl 8 1) (fl 1 1) true (fl 1 1024) 0 "Euler"
      (fl 0 1) (fl 0 1) (fl 0 1) (fl 0 1) (fl 0 1) (fl 0 1) (fl 1 1) (fl 0 1) (fl 0 1) (fl 0 1) (fl 0 1) (fl 0 1) (fl 0 1).

  Lemma ship_ok : exists e0, ship = Ok e0 /\ e_cmax e0 = A1 [fl 1 1; fl 1 1; fl 1 1; fl 1 1; fl 2 1; fl 4 1] /\
    d_max (e_dyn e0) = A1 [npinf; npinf; npinf; npinf; npinf; npinf; npinf; npinf; npinf; npinf; fl 1 1; fl 1 1; fl 1 1].
  Proof.
    assert (Q : exists e0, ship = Ok e0).
    { assert (Q : is_ok ship = true); [|destruct ship as [e0|]; [eauto|discriminate]].
      unfold ship, sixdof_spacecraft, sixdof_dyn, generate_cwh_matrices, pydiv.
      replace (neqb (fl 2 1) n0) with false by (vm_compute; reflexivity). reflexivity. }
    destruct Q as [e0 E]. exists e0. split; [exact E|].
    destruct (sixdof_craft_inv _ _ _ _ _ _ _ _ _ _ _ _ _ _ _ _ _ _ _ _ _ _ _ _ _ _ E) as (a0 & a1 & a2 & v0 & v1 & v2 & da & dv & A & Ad & V & Vd & D & C & _).
    unfold number_list_to_np in A, V. cbn [bind shape_eqb py_assert Nat.eqb andb nd_shape nd_is_f64 size_of fold_right Nat.mul Nat.add repeat pyfloat] in A, V.
    apply ok_inj in A. apply ok_inj in V. subst da dv. cbn [nd_data] in Ad, Vd.
    pose proof (sixdof_dyn_inv _ _ _ _ _ _ _ _ _ _ D) as (_ & M & _). rewrite C, M.
    assert (X : forall a b c : f64, Some [nmul (fl 1 1) n1; nmul (fl 1 1) n1; nmul (fl 1 1) n1] = Some [a; b; c] -> a = fl 1 1 /\ b = fl 1 1 /\ c = fl 1 1).
    { intros a b c H. replace (nmul (fl 1 1) n1) with (fl 1 1) in H by (apply f64_eq; vm_compute; reflexivity).
      pose proof (f_equal (fun o => match o with Some [a; _; _] => a | _ => fl 1 1 end) H) as H1.
      pose proof (f_equal (fun o => match o with Some [_; a; _] => a | _ => fl 1 1 end) H) as H2.
      pose proof (f_equal (fun o => match o with Some [_; _; a] => a | _ => fl 1 1 end) H) as H3. cbv beta iota in H1, H2, H3. auto. }
    destruct (X _ _ _ Ad) as (-> & -> & ->). destruct (X _ _ _ Vd) as (-> & -> & ->). cbn [m00 m11 m22 box].
    assert (L1 : sixdof_limit (fl 1 1) (fl 1 1) (fl 8 1) (fl 1 1) = fl 1 1) by (apply f64_eq; vm_compute; reflexivity).
    assert (L2 : sixdof_limit (fl 1 1) (fl 1 1) (fl 8 1) (fl 2 1) = fl 1 1) by (apply f64_eq; vm_compute; reflexivity).
    assert (L4 : sixdof_limit (fl 1 1) (fl 1 1) (fl 8 1) (fl 4 1) = fl 1 1) by (apply f64_eq; vm_compute; reflexivity).
    rewrite L1, L2, L4.
    replace (nmul (fl 1 1) (fl 1 1)) with (fl 1 1) by (apply f64_eq; vm_compute; reflexivity).
    replace (nmul (fl 1 1) (fl 2 1)) with (fl 2 1) by (apply f64_eq; vm_compute; reflexivity).
    replace (nmul (fl 1 1) (fl 4 1)) with (fl 4 1) by (apply f64_eq; vm_compute; reflexivity). split; reflexivity.
  Qed.

  Lemma ship_ex : exists e0 s', ship = Ok e0 /\
    e_state (o_entity (entity_step w (set_state e0 (A1 [fl 1000 1; fl (-500) 1; fl 200 1; fl 1 2; fl 1 2; fl 1 2; fl 1 2; fl 2 1; fl 0 1; fl 1 1; fl 1 4; fl (-1) 4; fl 1 2])) (fl 1 1)
      (AArr (A1 [fl 3 1; fl 0 1; fl 0 1; fl 1 8; fl 5 1; fl 0 1])))) = A1 s' /\
    sixdof_follows true 2 1 2 4 1 1 1 (1 / 1024) 1 [1000; -500; 200; 1 / 2; 1 / 2; 1 / 2; 1 / 2; 2; 0; 1; 1 / 4; -1 / 4; 1 / 2] [1; 0; 0; 1 / 8; 2; 0] s' /\
    Rabs (B2R (nth 8 s' (fl 0 1)) - (1 / 2 - 1 / 256)) <= 1 / 1000000.
  Proof.
    destruct ship_ok as (e0 & E & M & V). exists e0.
    assert (X0 : is_finite (fl 0 1) = true /\ B2R (fl 0 1) = 0) by exact fl0. destruct vals as (X2 & X1 & Xn).
    assert (X4 : is_finite (fl 4 1) = true /\ B2R (fl 4 1) = 4) by flv. assert (Xa : is_finite (fl 1000 1) = true /\ B2R (fl 1000 1) = 1000) by flv.
    assert (Xb : is_finite (fl (-500) 1) = true /\ B2R (fl (-500) 1) = -500) by flv. assert (Xc : is_finite (fl 200 1) = true /\ B2R (fl 200 1) = 200) by flv.
    assert (Xh : is_finite (fl 1 2) = true /\ B2R (fl 1 2) = 1 / 2) by flv. assert (Xq : is_finite (fl 1 4) = true /\ B2R (fl 1 4) = 1 / 4) by flv.
    assert (Xm : is_finite (fl (-1) 4) = true /\ B2R (fl (-1) 4) = -1 / 4) by flv. assert (Xe : is_finite (fl 1 8) = true /\ B2R (fl 1 8) = 1 / 8) by flv.
    assert (X3 : is_finite (fl 3 1) = true /\ B2R (fl 3 1) = 3) by flv. assert (X5 : is_finite (fl 5 1) = true /\ B2R (fl 5 1) = 5) by flv.
    Ltac sm := first [eapply small; [eassumption|apply Rabs_le; lra|lia]].
    Ltac bg X := rewrite (proj2 X), Rabs_pos_eq by lra; apply (Rle_trans _ (bpow radix2 0)); [apply bpow_le; lia|cbn; lra].
    destruct (sixdof_round_run lm w (fl 2 1) box (NAnum (PyFloat (fl 1 1))) (NAnum (PyFloat (fl 1 1))) (fl 1 1) (fl 8 1) (fl 8 1) (fl 1 1) true (fl 1 1024) 0
      (fl 0 1) (fl 0 1) (fl 0 1) (fl 0 1) (fl 0 1) (fl 0 1) (fl 1 1) (fl 0 1) (fl 0 1) (fl 0 1) (fl 0 1) (fl 0 1) (fl 0 1) e0
      (A1 [fl 1000 1; fl (-500) 1; fl 200 1; fl 1 2; fl 1 2; fl 1 2; fl 1 2; fl 2 1; fl 0 1; fl 1 1; fl 1 4; fl (-1) 4; fl 1 2]) []
      (set_state e0 (A1 [fl 1000 1; fl (-500) 1; fl 200 1; fl 1 2; fl 1 2; fl 1 2; fl 1 2; fl 2 1; fl 0 1; fl 1 1; fl 1 4; fl (-1) 4; fl 1 2]))
      (fl 1 1) (fl 2 1) (fl 4 1) (fl 1 1) (fl 1 1) (fl 1 1) (fl 1 1) (fl 1 1) (fl 1 1) (fl 1 1) (fl 2 1) (fl 4 1) (fl 1 1)
      (fl 1000 1) (fl (-500) 1) (fl 200 1) (fl 1 2) (fl 1 2) (fl 1 2) (fl 1 2) (fl 2 1) (fl 0 1) (fl 1 1) (fl 1 4) (fl (-1) 4) (fl 1 2)
      (fl 3 1) (fl 0 1) (fl 0 1) (fl 1 8) (fl 5 1) (fl 0 1)) as (s' & _ & S & F).
    - exact E.
    - reflexivity.
    - lia.
    - exact M.
    - exact V.
    - reflexivity.
    - reflexivity.
    - reflexivity.
    - repeat (apply Forall_cons; [sm|]). apply Forall_nil.
    - apply X2.
    - bg X2.
    - repeat (apply Forall_cons; [sm|]). apply Forall_nil.
    - apply Forall_cons; [bg X1|]. apply Forall_cons; [bg X2|]. apply Forall_cons; [bg X4|]. apply Forall_nil.
    - repeat (apply Forall_cons; [apply X1|]). apply Forall_nil.
    - split; [apply Xn|]. rewrite (proj2 Xn), Rabs_pos_eq by lra. cbn. lra.
    - sm.
    - repeat (apply Forall_cons; [sm|]). apply Forall_nil.
    - repeat (apply Forall_cons; [sm|]). apply Forall_nil.
    - repeat (apply Forall_cons; [first [apply X3|apply X0|apply Xe|apply X5]|]). apply Forall_nil.
    - reflexivity.
    - exists s'. split; [exact E|]. split; [exact S|]. cbv zeta in F. cbn [map] in F.
      rewrite (proj2 X0), (proj2 X1), (proj2 X2), (proj2 X3), (proj2 X4), (proj2 X5), (proj2 Xa), (proj2 Xb), (proj2 Xc), (proj2 Xh), (proj2 Xq), (proj2 Xm), (proj2 Xe), (proj2 Xn) in F.
      replace (clipR (- (1)) 1 3) with 1 in F by (unfold clipR, Rmin, Rmax; repeat destruct (Rle_dec _ _); lra).
      replace (clipR (- (1)) 1 0) with 0 in F by (unfold clipR, Rmin, Rmax; repeat destruct (Rle_dec _ _); lra).
      replace (clipR (- (1)) 1 (1 / 8)) with (1 / 8) in F by (unfold clipR, Rmin, Rmax; repeat destruct (Rle_dec _ _); lra).
      replace (clipR (- (2)) 2 5) with 2 in F by (unfold clipR, Rmin, Rmax; repeat destruct (Rle_dec _ _); lra).
      replace (clipR (- (4)) 4 0) with 0 in F by (unfold clipR, Rmin, Rmax; repeat destruct (Rle_dec _ _); lra).
      split; [exact F|].
      destruct s' as [|x' [|y' [|z' [|q1' [|q2' [|q3' [|q4' [|vx' [|vy' [|vz' [|wx' [|wy' [|wz' [|]]]]]]]]]]]]]]; try (exfalso; exact F).
      cbn [nth]. unfold sixdof_follows in F. cbn [spin qmul qconj scale3 SpecSixDof.add3 SpecSixDof.cross SpecSixDof.dot3 fst snd] in F.
      destruct F as (_ & _ & (_ & (_ & Fy) & _) & _). unfold single_error in Fy.
      rewrite !Rabs_R0, !Rabs_R1 in Fy. rewrite !(Rabs_pos_eq (1 / 2)), !(Rabs_pos_eq 2), (Rabs_pos_eq (1 / 1024)) in Fy by lra.
      assert (P22 : bpow radix2 (-22) <= / 4000000) by (cbn; lra). assert (P140 : bpow radix2 (-140) <= / 1000000000) by (apply (Rle_trans _ (bpow radix2 (-30))); [apply bpow_le; lia|cbn; lra]).
      set (a := bpow radix2 (-22)) in *. set (b := bpow radix2 (-140)) in *. set (c := bpow radix2 (-46)) in *.
      match type of Fy with Rabs ?l <= _ => replace l with (B2R vy' - (1 / 2 - 1 / 256)) in Fy by lra end.
      eapply Rle_trans; [exact Fy|]. lra.
  Qed.
End W.
