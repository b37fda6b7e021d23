(** Properties C01-C16: the step machinery shared by all entities. *)
From Coq Require Import String List Bool Arith ZArith Lia Reals Lra Permutation.
From Flocq Require Import Core.Core IEEE754.BinarySingleNaN.
From Verif Require Import PyBase Num Arr BaseModel Spec SpecBase SpecWrap XReal Float64 NumOrdLemmas ArrLemmas
  BaseLemmas BaseLemmas2 BaseLemmas3 BaseLemmas4 WrapLemmas F64Wrap Cwh Rot2d SixDof Sun Integ Dubins XTac Witness
  BaseLemmas5.
Import ListNotations.

(** * C01 Control saturation *)

(** Whatever the action, replacing the differential equation at controls outside the
    limits makes no observable difference: it is never evaluated there. *)
Theorem C01_only_limited_controls_reach_dynamics :
  forall T (N : Num T) (O : NumOrd T) (w : world T) (e : entity T) h a raw',
    limits_ok (e_cmin e) (e_cmax e) ->
    (forall t x u, in_limits (e_cmin e) (e_cmax e) u -> d_raw (e_dyn e) t x u = raw' t x u) ->
    same_outcome (entity_step w (set_raw e raw') h a) (entity_step w e h a).
Proof. exact (fun T N O => @saturation T N O). Qed.
Print Assumptions C01_only_limited_controls_reach_dynamics.

(** The control that is used instead of [c] is its element-wise saturation. *)
Theorem C01_control_saturation :
  forall T (N : Num T) (O : NumOrd T) (w : world T) (e : entity T) h c,
    limits_ok (e_cmin e) (e_cmax e) -> fits (e_cmin e) c -> fits (e_cmax e) c ->
    exists c', same_shape c c' /\
      (forall i x, anth c i = Some x -> exists l u y, bnth (e_cmin e) i = Some l /\
         bnth (e_cmax e) i = Some u /\ anth c' i = Some y /\ saturates l u x y) /\
      same_effect (entity_step w e h (AArr c)) (entity_step w e h (AArr c')) /\
      o_warned (entity_step w e h (AArr c')) = false.
Proof. exact (fun T N O => @presaturated T N O). Qed.
Print Assumptions C01_control_saturation.

(** The default Dubins aircraft and the action (9, -200) meet the hypotheses, and the
    step succeeds and warns. *)
Example C01_example :
  let e := dub2F 0 "Euler" (fl 200 1) (fl 400 1) (fl 1 1) (fl 300 1) in
  let c := A1 [fl 9 1; fl (-200) 1] in
  limits_ok (N := F64 lm0) (e_cmin e) (e_cmax e) /\ fits (e_cmin e) c /\ fits (e_cmax e) c /\
  o_res (entity_step (N := F64 lm0) (euler_world (N := F64 lm0)) e (fl 1 1) (AArr c)) = Ok tt /\
  o_warned (entity_step (N := F64 lm0) (euler_world (N := F64 lm0)) e (fl 1 1) (AArr c)) = true.
Proof.
  cbv zeta. split; [|repeat split; vm_compute; reflexivity].
  intros i l u Hl Hu. destruct i as [|[|i]]; simpl in Hl, Hu; try (destruct i; discriminate);
    injection Hl as <-; injection Hu as <-; vm_compute; reflexivity.
Qed.

(** * C02 In-range controls are untouched and the warning is exact *)

Theorem C02_warning_exact :
  forall T (N : Num T) (w : world T) (e : entity T) h c,
    fits (e_cmin e) c -> fits (e_cmax e) c ->
    (o_warned (entity_step w e h (AArr c)) = true <-> exceeds (e_cmin e) (e_cmax e) c).
Proof. exact (fun T N => @warned_iff T N). Qed.
Print Assumptions C02_warning_exact.

(** In range: the dynamics sees a numerically equal vector (only the sign of a zero that
    coincides with a limit may differ). *)
Theorem C02_in_range_untouched :
  forall T (N : Num T) (O : NumOrd T) (w : world T) (e : entity T) h c raw',
    fits (e_cmin e) c -> fits (e_cmax e) c ->
    (forall i x l u, anth c i = Some x -> bnth (e_cmin e) i = Some l -> bnth (e_cmax e) i = Some u ->
       nleb l x = true /\ nleb x u = true) ->
    (forall t x u, arr_eq u c -> d_raw (e_dyn e) t x u = raw' t x u) ->
    same_outcome (entity_step w (set_raw e raw') h (AArr c)) (entity_step w e h (AArr c)).
Proof. exact (fun T N O => @passthrough T N O). Qed.
Print Assumptions C02_in_range_untouched.

(** Strictly inside: the dynamics sees exactly the given vector. *)
Theorem C02_interior_unchanged :
  forall T (N : Num T) (O : NumOrd T) (w : world T) (e : entity T) h c raw',
    fits (e_cmin e) c -> fits (e_cmax e) c ->
    (forall i x l u, anth c i = Some x -> bnth (e_cmin e) i = Some l -> bnth (e_cmax e) i = Some u ->
       nltb l x = true /\ nltb x u = true) ->
    (forall t x, d_raw (e_dyn e) t x c = raw' t x c) ->
    same_outcome (entity_step w (set_raw e raw') h (AArr c)) (entity_step w e h (AArr c)).
Proof. exact (fun T N O => @passthrough_exact T N O). Qed.
Print Assumptions C02_interior_unchanged.

Example C02_example :
  let e := cwhF "Euler" (fl 100 1) (fl 1 1) in
  let c := A1 [fl 1 2; fl (-1) 4; fl 0 1] in
  fits (e_cmin e) c /\ fits (e_cmax e) c /\
  (forall i x l u, anth c i = Some x -> bnth (e_cmin e) i = Some l -> bnth (e_cmax e) i = Some u ->
     @nltb f64 (F64 lm0) l x = true /\ @nltb f64 (F64 lm0) x u = true) /\
  o_warned (entity_step (N := F64 lm0) (euler_world (N := F64 lm0)) e (fl 1 1) (AArr c)) = false /\
  o_warned (entity_step (N := F64 lm0) (euler_world (N := F64 lm0)) e (fl 1 1)
     (AArr (A1 [fl 0 1; fl 0 1; fl 2 1]))) = true.
Proof.
  cbv zeta. split; [exact I|]. split; [exact I|]. split.
  - intros i x l u Hx Hl Hu. destruct i as [|[|[|i]]]; simpl in Hx, Hl, Hu; try (destruct i; discriminate);
      injection Hx as <-; injection Hl as <-; injection Hu as <-; vm_compute; split; reflexivity.
  - split; vm_compute; reflexivity.
Qed.

(** * C03 Dict actions *)

Theorem C03_dict_sets_named_actuators :
  forall T (N : Num T) (w : world T) (e : entity T) h items cmap dflt,
    e_cmap e = Some cmap -> e_default e = A1 dflt -> cmap_ok cmap (length dflt) ->
    NoDup (map fst items) ->
    (forall name v, In (name, v) items -> dict_get name cmap <> None) ->
    exists c, dict_control cmap items dflt c /\
      (forall c', dict_control cmap items dflt c' -> c' = c) /\
      entity_step w e h (ADict items) = entity_step w e h (AArr (A1 c)).
Proof. exact (fun T N => @step_dict_exact T N). Qed.
Print Assumptions C03_dict_sets_named_actuators.

Theorem C03_dict_order_irrelevant :
  forall T (N : Num T) (w : world T) (e : entity T) h items items' cmap dflt,
    e_cmap e = Some cmap -> e_default e = A1 dflt -> cmap_ok cmap (length dflt) ->
    NoDup (map fst items) ->
    (forall name v, In (name, v) items -> dict_get name cmap <> None) ->
    Permutation items items' ->
    entity_step w e h (ADict items) = entity_step w e h (ADict items').
Proof. exact (fun T N => @step_dict_perm T N). Qed.
Print Assumptions C03_dict_order_irrelevant.

Theorem C03_dict_unknown_name :
  forall T (N : Num T) (w : world T) (e : entity T) h items cmap dflt,
    e_cmap e = Some cmap -> e_default e = A1 dflt -> cmap_ok cmap (length dflt) ->
    (exists name v, In (name, v) items /\ dict_get name cmap = None) ->
    entity_step w e h (ADict items) = {| o_entity := e; o_warned := false; o_res := Err KeyError |}.
Proof. exact (fun T N => @step_dict_unknown T N). Qed.
Print Assumptions C03_dict_unknown_name.

Theorem C03_dict_without_map :
  forall T (N : Num T) (w : world T) (e : entity T) h items,
    e_cmap e = None ->
    entity_step w e h (ADict items) = {| o_entity := e; o_warned := false; o_res := Err AssertionError |}.
Proof. exact (fun T N => @step_dict_nomap T N). Qed.
Print Assumptions C03_dict_without_map.

(** The maps of CWHSpacecraft and the default control meet the hypotheses; the dict is
    given in the opposite order of the map. *)
Example C03_example :
  let e := cwhF "Euler" (fl 100 1) (fl 1 1) in
  let items := [("thrust_z", fl 1 2); ("thrust_x", fl (-1) 4)]%string in
  e_cmap e = Some cwh_control_map /\ e_default e = A1 [fl 0 1; fl 0 1; fl 0 1] /\
  cmap_ok cwh_control_map 3 /\ NoDup (map fst items) /\
  (forall name v, In (name, v) items -> dict_get name cwh_control_map <> None) /\
  dict_control cwh_control_map items [fl 0 1; fl 0 1; fl 0 1] [fl (-1) 4; fl 0 1; fl 1 2] /\
  o_res (entity_step (N := F64 lm0) (euler_world (N := F64 lm0)) e (fl 1 1) (ADict items)) = Ok tt.
Proof.
  cbv zeta. split; [reflexivity|]. split; [reflexivity|]. split; [exact cwh_cmap_ok|].
  split; [repeat constructor; simpl; intuition discriminate|].
  split; [intros n v [H|[H|[]]]; injection H as <- <-; discriminate|].
  split; [|vm_compute; reflexivity].
  split; [reflexivity|]. split.
  - intros n v i [H|[H|[]]]; injection H as <- <-; simpl; intros E; injection E as <-; reflexivity.
  - intros [|[|[|i]]] H; simpl; try reflexivity.
    + exfalso. apply (H "thrust_x"%string (fl (-1) 4)); [right; left; reflexivity|reflexivity].
    + exfalso. apply (H "thrust_z"%string (fl 1 2)); [left; reflexivity|reflexivity].
Qed.

(** * C04 Default action *)

Theorem C04_default_action :
  forall T (N : Num T) (w : world T) (e : entity T) h,
    entity_step w e h ANone = entity_step w e h (AArr (e_default e)) /\
    (e_cmap e <> None -> entity_step w e h ANone = entity_step w e h (ADict [])).
Proof. exact (fun T N => @step_default T N). Qed.
Print Assumptions C04_default_action.

(** After any history of steps (failed or not) and state assignments, a step without
    action still uses the default control the entity was built with. *)
Theorem C04_default_never_changes :
  forall T (N : Num T) (w : world T) (e : entity T) (l : list (op T)) h,
    e_default (exec_all w e l) = e_default e /\
    entity_step w (exec_all w e l) h ANone = entity_step w (exec_all w e l) h (AArr (e_default e)).
Proof. exact (fun T N => @default_stable T N). Qed.
Print Assumptions C04_default_never_changes.

Example C04_example :
  let e := cwhF "Euler" (fl 100 1) (fl 1 1) in
  e_cmap e <> None /\
  o_res (entity_step (N := F64 lm0) (euler_world (N := F64 lm0)) e (fl 1 1) ANone) = Ok tt /\
  e_default (exec_all (N := F64 lm0) (euler_world (N := F64 lm0)) e
     [OStep (fl 1 1) (ADict [("thrust_x"%string, fl 1 1)]); OStep (fl 1 1) AOther]) = A1 [fl 0 1; fl 0 1; fl 0 1].
Proof. cbv zeta. split; [discriminate|]. split; vm_compute; reflexivity. Qed.

(** * C05 Action encodings agree *)

(** Dict and array agree by C03. List and array agree when the list elements are
    float32 numbers.
    Missing: other list elements, where it is false. *)
Theorem C05_list_is_array_partial :
  forall T (N : Num T) (w : world T) (e : entity T) h l,
    (forall x, In x l -> nf32 x = x) ->
    entity_step w e h (AList l) = entity_step w e h (AArr (A1 l)).
Proof. exact (fun T N => @step_list T N). Qed.
Print Assumptions C05_list_is_array_partial.

(** In general a list is an array of float32-rounded values. *)
Theorem C05_list_is_rounded_array :
  forall T (N : Num T) (w : world T) (e : entity T) h l,
    entity_step w e h (AList l) = entity_step w e h (AArr (A1 (map nf32 l))).
Proof. exact (fun T N => @step_list_f32 T N). Qed.
Print Assumptions C05_list_is_rounded_array.

Example C05_example : forall x, In x [fl 1 2; fl (-1) 4; fl 0 1] -> f64_f32 x = x.
Proof.
  intros x [<-|[<-|[<-|[]]]]; apply B2SF_inj; vm_compute; reflexivity.
Qed.

(** Full statement false: for CWHSpacecraft the thrust list [0.1, 0, 0] and the array of
    the same numbers lead to different states. *)
Theorem C05_refuted :
  exists (e : entity f64) (h : f64) (l : list f64),
    let w := euler_world (N := F64 lm0) in
    o_res (entity_step (N := F64 lm0) w e h (AList l)) = Ok tt /\
    o_res (entity_step (N := F64 lm0) w e h (AArr (A1 l))) = Ok tt /\
    e_state (o_entity (entity_step (N := F64 lm0) w e h (AList l))) <>
    e_state (o_entity (entity_step (N := F64 lm0) w e h (AArr (A1 l)))).
Proof.
  exists (cwhF "Euler" (fl 0 1) (fl 0 1)), (fl 1 1), [fl 1 10; fl 0 1; fl 0 1]. cbv zeta.
  split; [vm_compute; reflexivity|]. split; [vm_compute; reflexivity|].
  intros H. apply (f_equal (amap B2SF)) in H. vm_compute in H. discriminate.
Qed.
Print Assumptions C05_refuted.

(** * C06 A failed step changes nothing *)

Theorem C06_failed_step :
  forall T (N : Num T) (w : world T) (e : entity T) h a x,
    o_res (entity_step w e h a) = Err x ->
    let e' := o_entity (entity_step w e h a) in
    e_state e' = e_state e /\ e_sdot e' = e_sdot e /\ same_config e' e /\
    (d_method (e_dyn e) <> "RK45"%string -> e' = e).
Proof. exact (fun T N => @failed_step T N). Qed.
Print Assumptions C06_failed_step.

Theorem C06_unsupported_action :
  forall T (N : Num T) (w : world T) (e : entity T) h,
    entity_step w e h AOther = {| o_entity := e; o_warned := false; o_res := Err ValueError |}.
Proof. exact (fun T N => @step_other T N). Qed.
Print Assumptions C06_unsupported_action.

Example C06_example :
  let e := cwhF "RK4" (fl 100 1) (fl 1 1) in
  o_res (entity_step (N := F64 lm0) (euler_world (N := F64 lm0)) e (fl 1 1) ANone) = Err ValueError.
Proof. vm_compute. reflexivity. Qed.

(** * C08 State limits hold after every step *)

Theorem C08_state_limits :
  forall T (N : Num T) (O : NumOrd T) (w : world T) (e : entity T) acts e',
    acts <> [] -> run w e acts = Ok e' ->
    limits_ok (d_min (e_dyn e)) (d_max (e_dyn e)) ->
    forall i x l u, bnth (e_state e') i = Some x ->
      bnth (d_min (e_dyn e)) i = Some l -> bnth (d_max (e_dyn e)) i = Some u ->
      ~ wrapped_at (e_dyn e) i ->
      nisnan x = true \/ (nleb l x = true /\ nleb x u = true).
Proof. exact (fun T N O => @run_limits T N O). Qed.
Print Assumptions C08_state_limits.

(** Failed steps in between do no harm. *)
Theorem C08_state_limits_with_failures :
  forall T (N : Num T) (O : NumOrd T) (w : world T) (e : entity T) h a l,
    o_res (entity_step w e h a) = Ok tt ->
    limits_ok (d_min (e_dyn e)) (d_max (e_dyn e)) ->
    forall i x lo hi,
      bnth (e_state (exec_all w e (OStep h a :: map (fun p => OStep (fst p) (snd p)) l))) i = Some x ->
      bnth (d_min (e_dyn e)) i = Some lo -> bnth (d_max (e_dyn e)) i = Some hi ->
      ~ wrapped_at (e_dyn e) i ->
      nisnan x = true \/ (nleb lo x = true /\ nleb x hi = true).
Proof. exact (fun T N O => @history_limits T N O). Qed.
Print Assumptions C08_state_limits_with_failures.

(** The default Dubins aircraft accelerating three times at full throttle from 350: the
    speed element ends at its limit 400. *)
Example C08_example :
  let e := dub2F 0 "Euler" (fl 200 1) (fl 400 1) (fl 1 1) (fl 350 1) in
  let acts := repeat (fl 1 1, AArr (A1 [fl 0 1; fl 96 1])) 3 in
  match run (N := F64 lm0) (euler_world (N := F64 lm0)) e acts with
  | Ok e' => option_map B2SF (anth (e_state e') 3)
  | Err _ => None
  end = Some (B2SF (fl 400 1)) /\
  limits_ok (N := F64 lm0) (d_min (e_dyn e)) (d_max (e_dyn e)) /\
  ~ wrapped_at (N := F64 lm0) (e_dyn e) 3.
Proof.
  cbv zeta. split; [|split].
  - vm_compute. reflexivity.
  - intros i l u Hl Hu. destruct i as [|[|[|[|i]]]]; simpl in Hl, Hu; try (destruct i; discriminate);
      injection Hl as <-; injection Hu as <-; vm_compute; reflexivity.
  - intros (c & x & Hc & Hx & Nx). simpl in Hc. injection Hc as <-. simpl in Hx. injection Hx as <-.
    vm_compute in Nx. discriminate.
Qed.

(** * C09 Angle wrapping around 0 *)

(** Exact arithmetic: compare the step with the step of the same entity without
    wrapping. *)
Theorem C09_wrap_zero_center :
  forall (r32 : R -> xr) (w : world xr) (e : entity xr) h a c i y,
    o_res (entity_step (N := XR r32) w e h a) = Ok tt ->
    d_wrap (e_dyn e) = Some c -> bnth c i = Some (Fin 0) ->
    bnth (e_state (o_entity (entity_step (N := XR r32) w e h a))) i = Some y ->
    exists x, bnth (e_state (o_entity (entity_step (N := XR r32) w (set_wrap e None) h a))) i = Some x /\
      ((exists rx ry, x = Fin rx /\ y = Fin ry /\ (- PI <= ry < PI)%R /\ same_angle rx ry /\
          ((- PI <= rx < PI)%R -> ry = rx)) \/
       ((forall r, x <> Fin r) /\ y = NaN)).
Proof. exact wrap0_finite. Qed.
Print Assumptions C09_wrap_zero_center.

Theorem C09_nan_center_untouched :
  forall (r32 : R -> xr) (w : world xr) (e : entity xr) h a c i y,
    o_res (entity_step (N := XR r32) w e h a) = Ok tt ->
    d_wrap (e_dyn e) = Some c -> bnth c i = Some NaN ->
    bnth (e_state (o_entity (entity_step (N := XR r32) w e h a))) i = Some y ->
    bnth (e_state (o_entity (entity_step (N := XR r32) w (set_wrap e None) h a))) i = Some y.
Proof. exact wrap_nan_center. Qed.
Print Assumptions C09_nan_center_untouched.

Theorem C09_wrap_idempotent :
  forall (r32 : R -> xr) (d : dyn xr) c s s' s'' i,
    d_wrap d = Some c -> bnth c i = Some (Fin 0) ->
    wrap_angles (N := XR r32) d s = Ok s' -> wrap_angles (N := XR r32) d s' = Ok s'' ->
    bnth s'' i = bnth s' i.
Proof. exact wrap_twice. Qed.
Print Assumptions C09_wrap_idempotent.

(** Binary64: the wrapped angle lies in the closed interval [-np.pi, np.pi]. *)
Theorem C09_wrap_range_binary64 :
  forall (lm : libm) (w : world f64) (e : entity f64) h a c i y,
    o_res (entity_step (N := F64 lm) w e h a) = Ok tt ->
    d_wrap (e_dyn e) = Some c -> bnth c i = Some (@n0 f64 (F64 lm)) ->
    bnth (e_state (o_entity (entity_step (N := F64 lm) w e h a))) i = Some y ->
    is_nan y = true \/ (Bleb (Bopp f64_pi) y = true /\ Bleb y f64_pi = true).
Proof. exact wrap64_step_range. Qed.
Print Assumptions C09_wrap_range_binary64.

(** Binary64, half-open interval: false. The number just below -np.pi is wrapped to
    +np.pi itself. *)
Theorem C09_half_open_binary64_refuted :
  exists x : f64, is_finite x = true /\
    wrap1 (N := F64 lm0) (@n0 f64 (F64 lm0)) x = f64_pi.
Proof.
  exists (Bpred f64_pi_neg). split; [vm_compute; reflexivity|]. apply B2SF_inj. vm_compute. reflexivity.
Qed.
Print Assumptions C09_half_open_binary64_refuted.

(** Non-vacuity: heading 3 plus one second at rate 1 wraps to 4 - 2 pi. *)
Example C09_example :
  o_res (entity_step (N := XR Fin) (euler_world (N := XR Fin)) (dub2X 0 "Euler" 3) (Fin 1) (AArr (A1 [Fin 1; Fin 0]))) = Ok tt /\
  exists c, d_wrap (e_dyn (dub2X 0 "Euler" 3)) = Some c /\ bnth c 2 = Some (Fin 0) /\ bnth c 3 = Some NaN.
Proof.
  split; [unfold entity_step; xstep; reflexivity|].
  eexists. split; [reflexivity|]. split; [cbn; f_equal; f_equal; lra|reflexivity].
Qed.

(** * C10 Angle wrapping around an arbitrary center *)

(** What holds: the range, and the direction up to the center itself.
    Missing: the same direction for a nonzero center, which is false. *)
Theorem C10_wrap_center_partial :
  forall (r32 : R -> xr) (w : world xr) (e : entity xr) h a c i cc y,
    o_res (entity_step (N := XR r32) w e h a) = Ok tt ->
    d_wrap (e_dyn e) = Some c -> bnth c i = Some (Fin cc) ->
    bnth (e_state (o_entity (entity_step (N := XR r32) w e h a))) i = Some y ->
    exists x, bnth (e_state (o_entity (entity_step (N := XR r32) w (set_wrap e None) h a))) i = Some x /\
      (forall rx, x = Fin rx ->
         exists ry, y = Fin ry /\ (cc - PI <= ry < cc + PI)%R /\ same_angle (rx + cc)%R ry /\
           (same_angle rx ry <-> same_angle cc 0)).
Proof. exact wrap_center. Qed.
Print Assumptions C10_wrap_center_partial.

Example C10_example :
  o_res (entity_step (N := XR Fin) (euler_world (N := XR Fin)) (angleX "Euler" (Fin PI) NInf PInf 1) (Fin 1) (AArr (A1 [Fin 1]))) = Ok tt.
Proof. unfold entity_step; xstep; reflexivity. Qed.

(** Full statement false: with center 1 the angle 0 becomes the angle 1. *)
Theorem C10_refuted :
  exists (e : entity xr) (h : xr) (a : action xr) rx ry,
    let w := euler_world (N := XR Fin) in
    o_res (entity_step (N := XR Fin) w e h a) = Ok tt /\
    e_state (o_entity (entity_step (N := XR Fin) w (set_wrap e None) h a)) = A1 [Fin rx] /\
    e_state (o_entity (entity_step (N := XR Fin) w e h a)) = A1 [Fin ry] /\
    ~ same_angle rx ry.
Proof. exact wrap_center_witness. Qed.
Print Assumptions C10_refuted.

(** * C11 Wrapping does not undo the state limits *)

(** Exact arithmetic: limits inside [-pi, pi) survive.
    Missing: limits beyond that, where it is false. *)
Theorem C11_limits_survive_wrapping_partial :
  forall (r32 : R -> xr) (w : world xr) (e : entity xr) h a c i lo hi y,
    o_res (entity_step (N := XR r32) w e h a) = Ok tt ->
    limits_ok (N := XR r32) (d_min (e_dyn e)) (d_max (e_dyn e)) ->
    d_wrap (e_dyn e) = Some c -> bnth c i = Some (Fin 0) ->
    bnth (d_min (e_dyn e)) i = Some (Fin lo) -> bnth (d_max (e_dyn e)) i = Some (Fin hi) ->
    (- PI <= lo)%R -> (hi < PI)%R ->
    bnth (e_state (o_entity (entity_step (N := XR r32) w e h a))) i = Some y ->
    y = NaN \/ exists r, y = Fin r /\ (lo <= r <= hi)%R.
Proof. exact wrap_keeps_limits. Qed.
Print Assumptions C11_limits_survive_wrapping_partial.

(** Binary64: limits inside [-np.pi, np.pi) that are multiples of 2^-48 (every float32
    number of magnitude at least 2^-25 is one) survive, whatever the value in between.
    Missing: limits beyond that, where it is false, and finer limits. *)
Theorem C11_limits_survive_wrapping_binary64_partial :
  forall (lm : libm) (w : world f64) (e : entity f64) h a c i lo hi y (klo khi : Z),
    o_res (entity_step (N := F64 lm) w e h a) = Ok tt ->
    limits_ok (N := F64 lm) (d_min (e_dyn e)) (d_max (e_dyn e)) ->
    d_wrap (e_dyn e) = Some c -> bnth c i = Some (@n0 f64 (F64 lm)) ->
    bnth (d_min (e_dyn e)) i = Some lo -> bnth (d_max (e_dyn e)) i = Some hi ->
    is_finite lo = true -> is_finite hi = true ->
    B2R lo = F2R (Float radix2 klo (-48)) -> B2R hi = F2R (Float radix2 khi (-48)) ->
    (- B2R f64_pi <= B2R lo)%R -> (B2R hi < B2R f64_pi)%R ->
    bnth (e_state (o_entity (entity_step (N := F64 lm) w e h a))) i = Some y ->
    is_nan y = true \/ (Bleb lo y = true /\ Bleb y hi = true).
Proof. exact wrap64_keeps_limits. Qed.
Print Assumptions C11_limits_survive_wrapping_binary64_partial.

Example C11_example :
  let e := angleX "Euler" (Fin 0) (Fin (-1)) (Fin 1) (1/2) in
  o_res (entity_step (N := XR Fin) (euler_world (N := XR Fin)) e (Fin 1) (AArr (A1 [Fin 1]))) = Ok tt /\
  limits_ok (N := XR Fin) (d_min (e_dyn e)) (d_max (e_dyn e)) /\ (- PI <= -1)%R /\ (1 < PI)%R.
Proof.
  cbv zeta. pose proof PI2_3_2. split; [unfold entity_step; xstep; reflexivity|].
  split; [|lra]. intros i l u Hl Hu. simpl in Hl, Hu. injection Hl as <-. injection Hu as <-.
  cbn. apply Rle_bool_true. lra.
Qed.

(** Full statement false: a Dubins3dAircraft with roll limits [-4, 4] rolls from 3 to 4,
    which is within limits, and wrapping turns that into 4 - 2 pi; with limits [2, 4]
    the result is below the lower limit. *)
Theorem C11_refuted :
  exists (e : entity xr) (h : xr) (a : action xr) lo hi r,
    let w := euler_world (N := XR Fin) in
    o_res (entity_step (N := XR Fin) w e h a) = Ok tt /\
    bnth (d_min (e_dyn e)) 5 = Some (Fin lo) /\ bnth (d_max (e_dyn e)) 5 = Some (Fin hi) /\ (lo <= hi)%R /\
    bnth (e_state (o_entity (entity_step (N := XR Fin) w e h a))) 5 = Some (Fin r) /\ (r < lo)%R.
Proof. exact wrap_limits_witness. Qed.
Print Assumptions C11_refuted.

(** * C12 Derivative limits *)

(** Missing: equal limits on both sides, where it is false. *)
Theorem C12_derivative_limits_partial :
  forall T (N : Num T) (O : NumOrd T) (d : dyn T) t s u r raw,
    compute_state_dot d t s u = Ok r -> d_raw d t s u = Ok raw ->
    forall i y x ri lo hi slo shi, bnth r i = Some y ->
      bnth s i = Some x -> bnth raw i = Some ri -> bnth (d_min d) i = Some lo ->
      bnth (d_max d) i = Some hi -> bnth (d_sdmin d) i = Some slo -> bnth (d_sdmax d) i = Some shi ->
      (nleb hi x = true -> nisnan y = true \/ nleb y n0 = true) /\
      (nleb x lo = true -> nleb hi x = false -> nisnan y = true \/ nleb n0 y = true) /\
      (nleb slo n0 = true -> nleb n0 shi = true ->
         nisnan y = true \/ (nleb slo y = true /\ nleb y shi = true)) /\
      (nleb slo ri = true -> nleb ri shi = true ->
         (nleb x lo = true -> nleb n0 ri = true) -> (nleb hi x = true -> nleb ri n0 = true) ->
         neqb y ri = true).
Proof. exact (fun T N O => @derivative_limits T N O). Qed.
Print Assumptions C12_derivative_limits_partial.

Example C12_example :
  let e := dub2F 0 "Euler" (fl 200 1) (fl 400 1) (fl 1 1) (fl 400 1) in
  let c := A1 [fl 0 1; fl 50 1] in
  exists r, compute_state_dot (N := F64 lm0) (e_dyn e) (fl 0 1) (e_state e) c = Ok r /\
    option_map B2SF (anth r 3) = Some (B2SF (fl 0 1)).
Proof. eexists. split; [reflexivity|]. vm_compute. reflexivity. Qed.

(** Full statement false when the lower and the upper limit coincide: an aircraft with
    v_min = v_max = 200 at speed 200 braking with -1 gets the derivative -1, which points
    below the lower limit. *)
Theorem C12_refuted :
  exists (d : dyn f64) s u r x y lo,
    compute_state_dot (N := F64 lm0) d (fl 0 1) s u = Ok r /\
    anth s 3 = Some x /\ bnth (d_min d) 3 = Some lo /\ anth r 3 = Some y /\
    Bleb x lo = true /\ Bltb y (fl 0 1) = true.
Proof.
  set (e := dub2F 0 "Euler" (fl 200 1) (fl 200 1) (fl 1 1) (fl 200 1)).
  exists (e_dyn e), (e_state e), (A1 [fl 0 1; fl (-1) 1]).
  do 4 eexists. repeat split; try reflexivity; vm_compute; reflexivity.
Qed.
Print Assumptions C12_refuted.

(** * C13 Reported derivative *)

(** RK45: the reported derivative is the limited derivative at the last solver sample;
    that is the derivative at the end state when limits and wrapping did not change it.
    Missing: end states changed by limits or wrapping, and Euler steps, where it is false. *)
Theorem C13_reported_derivative_partial :
  forall T (N : Num T) (w : world T) (e : entity T) h a,
    d_method (e_dyn e) = "RK45"%string ->
    o_res (entity_step w e h a) = Ok tt ->
    let e' := o_entity (entity_step w e h a) in
    exists c c' rows q ts, decode_action w e a = Ok c /\ np_clip c (e_cmin e) (e_cmax e) = Ok c' /\
      e_traj e' = Some (rows ++ [q], ts) /\
      compute_state_dot (e_dyn e) h (A1 q) c' = Ok (e_sdot e') /\
      (e_state e' = A1 q -> compute_state_dot (e_dyn e) h (e_state e') c' = Ok (e_sdot e')).
Proof. exact (fun T N => @reported_derivative T N). Qed.
Print Assumptions C13_reported_derivative_partial.

Example C13_example :
  let e := cwhF "RK45" (fl 100 1) (fl 1 1) in
  d_method (e_dyn e) = "RK45"%string /\
  o_res (entity_step (N := F64 lm0) (euler_world (N := F64 lm0)) e (fl 1 1) ANone) = Ok tt.
Proof. split; vm_compute; reflexivity. Qed.

(** Full statement false for 'Euler': the reported derivative is the one at the start
    of the step. *)
Theorem C13_refuted :
  exists (e : entity f64) (h : f64) (c : arr f64) sd1,
    let w := euler_world (N := F64 lm0) in
    let e' := o_entity (entity_step (N := F64 lm0) w e h (AArr c)) in
    o_res (entity_step (N := F64 lm0) w e h (AArr c)) = Ok tt /\
    compute_state_dot (N := F64 lm0) (e_dyn e') h (e_state e') c = Ok sd1 /\
    e_sdot e' <> sd1.
Proof.
  exists (cwhF "Euler" (fl 0 1) (fl 0 1)), (fl 1 1), (A1 [fl 1 1; fl 0 1; fl 0 1]). eexists. cbv zeta.
  split; [vm_compute; reflexivity|]. split; [reflexivity|].
  intros H. apply (f_equal (amap B2SF)) in H. vm_compute in H. discriminate.
Qed.
Print Assumptions C13_refuted.

(** * C14 Integration method dispatch *)

Theorem C14_euler_step :
  forall T (N : Num T) (w : world T) (e : entity T) h a,
    d_method (e_dyn e) = "Euler"%string ->
    o_res (entity_step w e h a) = Ok tt ->
    exists c c' sd,
      decode_action w e a = Ok c /\ np_clip c (e_cmin e) (e_cmax e) = Ok c' /\
      compute_state_dot (e_dyn e) n0 (e_state e) c' = Ok sd /\
      e_sdot (o_entity (entity_step w e h a)) = sd /\
      forall i y, bnth (e_state (o_entity (entity_step w e h a))) i = Some y ->
        exists x di lo hi, bnth (e_state e) i = Some x /\ bnth sd i = Some di /\
          bnth (d_min (e_dyn e)) i = Some lo /\ bnth (d_max (e_dyn e)) i = Some hi /\
          y = match d_wrap (e_dyn e) with
              | None => clip1 (nadd x (nmul h di)) lo hi
              | Some c => match bnth c i with
                          | None => y
                          | Some cc => if nisnan cc then clip1 (nadd x (nmul h di)) lo hi
                                       else wrap1 cc (clip1 (nadd x (nmul h di)) lo hi)
                          end
              end.
Proof. exact (fun T N => @euler_step T N). Qed.
Print Assumptions C14_euler_step.

(** The same in specification terms, for elements without wrapping: the new element is the
    saturation of x + h * derivative. *)
Theorem C14_euler_step_saturates :
  forall T (N : Num T) (O : NumOrd T) (w : world T) (e : entity T) h a,
    d_method (e_dyn e) = "Euler"%string ->
    o_res (entity_step w e h a) = Ok tt ->
    limits_ok (d_min (e_dyn e)) (d_max (e_dyn e)) ->
    exists sd, e_sdot (o_entity (entity_step w e h a)) = sd /\
      forall i y, bnth (e_state (o_entity (entity_step w e h a))) i = Some y ->
        (forall c, d_wrap (e_dyn e) = Some c -> exists cc, bnth c i = Some cc /\ nisnan cc = true) ->
        exists x di lo hi, bnth (e_state e) i = Some x /\ bnth sd i = Some di /\
          bnth (d_min (e_dyn e)) i = Some lo /\ bnth (d_max (e_dyn e)) i = Some hi /\
          saturates lo hi (nadd x (nmul h di)) y.
Proof. exact (fun T N O => @euler_step_saturates T N O). Qed.
Print Assumptions C14_euler_step_saturates.

Theorem C14_rejected_configurations :
  forall T (N : Num T) (O : NumOrd T) (w : world T) (e : entity T) h c,
    fits (e_cmin e) c -> fits (e_cmax e) c ->
    let d := e_dyn e in
    let o := entity_step w e h (AArr c) in
    (d_method d <> "RK45"%string -> d_method d <> "RK45_JAX"%string -> d_method d <> "Euler"%string ->
       o_res o = Err ValueError /\ o_entity o = e) /\
    (d_method d = "RK45_JAX"%string -> d_use_jax d = false -> o_res o = Err ValueError /\ o_entity o = e) /\
    (d_method d = "RK45_JAX"%string -> d_use_jax d = true -> (0 < d_samples d)%Z ->
       o_res o = Err AssertionError /\ o_entity o = e) /\
    (d_method d = "Euler"%string -> (0 < d_samples d)%Z -> o_res o = Err AssertionError /\ o_entity o = e).
Proof. exact (fun T N O => @rejected_configs T N O). Qed.
Print Assumptions C14_rejected_configurations.

Theorem C14_constructor_accepts :
  forall T (w : world T) (d : dyn T), d_use_jax d = false -> mk_dyn w d = Ok d.
Proof. exact (fun T => @constructor_accepts T). Qed.
Print Assumptions C14_constructor_accepts.

Example C14_example :
  let e1 := cwhF "RK4" (fl 100 1) (fl 1 1) in
  let e2 := dub2F 5 "Euler" (fl 200 1) (fl 400 1) (fl 1 1) (fl 300 1) in
  let e3 := cwhF "RK45_JAX" (fl 100 1) (fl 1 1) in
  let w := euler_world (N := F64 lm0) in
  o_res (entity_step (N := F64 lm0) w e1 (fl 1 1) ANone) = Err ValueError /\
  o_res (entity_step (N := F64 lm0) w e2 (fl 1 1) ANone) = Err AssertionError /\
  o_res (entity_step (N := F64 lm0) w e3 (fl 1 1) ANone) = Err ValueError /\
  d_method (e_dyn (cwhF "Euler" (fl 100 1) (fl 1 1))) = "Euler"%string /\
  o_res (entity_step (N := F64 lm0) w (cwhF "Euler" (fl 100 1) (fl 1 1)) (fl 1 1) ANone) = Ok tt.
Proof. repeat split; vm_compute; reflexivity. Qed.

(** * C15 Trajectory samples *)

(** The solver is asked for the N equally spaced times h/N, ..., h and nothing else: two
    solvers that agree on such requests are indistinguishable. *)
Theorem C15_sample_times :
  forall (r32 : R -> xr) (w w' : world xr) (e : entity xr) h a,
    d_method (e_dyn e) = "RK45"%string -> (0 < d_samples (e_dyn e))%Z ->
    w_jax w = w_jax w' ->
    (forall f s l, sample_times h (Z.to_nat (d_samples (e_dyn e))) l ->
       w_solve_ivp w f (Fin h) s (Some l) = w_solve_ivp w' f (Fin h) s (Some l)) ->
    entity_step (N := XR r32) w e (Fin h) a = entity_step (N := XR r32) w' e (Fin h) a.
Proof. exact sampling_observed. Qed.
Print Assumptions C15_sample_times.

(** Such times are strictly increasing, positive, and end exactly at h. *)
Theorem C15_sample_times_increasing :
  forall h n l, sample_times h n l ->
    (forall i j a b, (0 < h)%R -> i < j -> nth_error l i = Some (Fin a) -> nth_error l j = Some (Fin b) ->
       (0 < a < b)%R) /\
    (0 < n -> nth_error l (n - 1) = Some (Fin h)).
Proof. exact sample_times_facts. Qed.
Print Assumptions C15_sample_times_increasing.

(** What is recorded is what the solver returned. *)
Theorem C15_trajectory_recorded :
  forall T (N : Num T) (w : world T) (e : entity T) h a,
    d_method (e_dyn e) = "RK45"%string ->
    o_res (entity_step w e h a) = Ok tt ->
    exists f te sol, w_solve_ivp w f h (e_state e) te = Ok sol /\
      e_traj (o_entity (entity_step w e h a)) = Some (sol_y sol, sol_t sol).
Proof. exact (fun T N => @trajectory_recorded T N). Qed.
Print Assumptions C15_trajectory_recorded.

Example C15_example :
  let e := dub2X 3 "RK45" 3 in
  d_method (e_dyn e) = "RK45"%string /\ (0 < d_samples (e_dyn e))%Z /\
  sample_times 6 3 [Fin (1 * 6 / 3); Fin (2 * 6 / 3); Fin (3 * 6 / 3)].
Proof.
  split; [reflexivity|]. split; [reflexivity|]. split; [reflexivity|].
  intros [|[|[|i]]] H; try lia; simpl; do 2 f_equal; lra.
Qed.

(** Full statement false: the last trajectory row need not be the state the entity ends
    up in, because limits and wrapping are applied afterwards. *)
Theorem C15_refuted :
  exists (e : entity xr) (h : xr) (a : action xr) rows ts q,
    let w := euler_world (N := XR Fin) in
    d_method (e_dyn e) = "RK45"%string /\
    o_res (entity_step (N := XR Fin) w e h a) = Ok tt /\
    e_traj (o_entity (entity_step (N := XR Fin) w e h a)) = Some (rows ++ [q], ts) /\
    e_state (o_entity (entity_step (N := XR Fin) w e h a)) <> A1 q.
Proof. exact trajectory_last_row_witness. Qed.
Print Assumptions C15_refuted.

(** * C16 Wrong-length actions are rejected *)

(** For every entity whose equation insists on n controls: any other length is rejected,
    except that length-1 actions need scalar limits.
    Missing: arrays of length one, which are accepted. *)
Theorem C16_wrong_length_partial :
  forall T (N : Num T) (w : world T) (e : entity T) h l n,
    honest_solver w ->
    (forall t s q, length q <> n -> exists x, d_raw (e_dyn e) t s (A1 q) = Err x) ->
    lim_dim n (e_cmin e) -> lim_dim n (e_cmax e) ->
    length l <> n ->
    (length l <> 1 \/ (exists x y, e_cmin e = A0 x /\ e_cmax e = A0 y)) ->
    (exists x, o_res (entity_step w e h (AArr (A1 l))) = Err x) /\
    e_state (o_entity (entity_step w e h (AArr (A1 l)))) = e_state e.
Proof. exact (fun T N => @wrong_length T N). Qed.
Print Assumptions C16_wrong_length_partial.

(** The vector entities of the library insist on their number of controls. *)
Theorem C16_library_equations_reject :
  forall T (N : Num T) t s q,
    (forall m n samples method d, cwh_dyn m n samples method = Ok d ->
       length q <> 3 -> exists x, d_raw d t s (A1 q) = Err x) /\
    (forall w m i acc vel n samples method uj d, rot2d_dyn w m i acc vel n samples method uj = Ok d ->
       length q <> 3 -> exists x, d_raw d t s (A1 q) = Err x) /\
    (forall m I vel n body samples method d, sixdof_dyn m I vel n body samples method = Ok d ->
       length q <> 6 -> exists x, d_raw d t s (A1 q) = Err x) /\
    (forall vmin vmax samples method,
       length q <> 2 -> exists x, d_raw (dubins2d_dyn vmin vmax samples method) t s (A1 q) = Err x) /\
    (forall g vmin vmax gmin gmax rmin rmax samples method,
       length q <> 3 ->
       exists x, d_raw (dubins3d_dyn g vmin vmax gmin gmax rmin rmax samples method) t s (A1 q) = Err x).
Proof. exact (fun T N => @library_rejects T N). Qed.
Print Assumptions C16_library_equations_reject.

Example C16_example :
  honest_solver (N := F64 lm0) (euler_world (N := F64 lm0)) /\
  o_res (entity_step (N := F64 lm0) (euler_world (N := F64 lm0)) (cwhF "RK45" (fl 0 1) (fl 0 1)) (fl 1 1)
     (AArr (A1 [fl 1 1; fl 1 1]))) = Err ValueError.
Proof. split; [exact euler_world_honest|vm_compute; reflexivity]. Qed.

(** Full statement false: a one-element array is broadcast to all actuators of an entity
    with vector limits. *)
Theorem C16_refuted :
  exists (e : entity f64) (h : f64) (c c' : list f64),
    let w := euler_world (N := F64 lm0) in
    length c <> 2 /\ e_default e = A1 [fl 0 1; fl 0 1] /\
    o_res (entity_step (N := F64 lm0) w e h (AArr (A1 c))) = Ok tt /\
    c' <> [fl 0 1; fl 0 1] /\
    amap B2SF (e_state (o_entity (entity_step (N := F64 lm0) w e h (AArr (A1 c))))) =
    amap B2SF (e_state (o_entity (entity_step (N := F64 lm0) w e h (AArr (A1 c'))))).
Proof.
  exists (dub2F 0 "Euler" (fl 200 1) (fl 400 1) (fl 1 1) (fl 300 1)), (fl 1 1), [fl 1 8], [fl 1 8; fl 1 8].
  cbv zeta. split; [discriminate|]. split; [reflexivity|]. split; [vm_compute; reflexivity|].
  split; [intros H; apply (f_equal (map B2SF)) in H; vm_compute in H; discriminate|].
  vm_compute. reflexivity.
Qed.
Print Assumptions C16_refuted.

(** * C69 Solver failure is noticed *)

(** False: the success flag of the ODE solver has no influence on the outcome of any
    step. *)
Theorem C69_flag_has_no_influence :
  forall T (N : Num T) (w : world T) (e : entity T) h a b,
    entity_step (with_flag b w) e h a = entity_step w e h a.
Proof. exact (fun T N => @flag_ignored T N). Qed.
Print Assumptions C69_flag_has_no_influence.

(** In particular a step succeeds and moves the spacecraft although the solver reports
    failure on every call. *)
Theorem C69_refuted :
  exists (w : world f64) (e : entity f64) (h : f64),
    (forall f h s te sol, w_solve_ivp w f h s te = Ok sol -> sol_success sol = false) /\
    o_res (entity_step (N := F64 lm0) w e h ANone) = Ok tt /\
    e_state (o_entity (entity_step (N := F64 lm0) w e h ANone)) <> e_state e.
Proof.
  exists (with_flag false (euler_world (N := F64 lm0))), (cwhF "RK45" (fl 100 1) (fl 1 1)), (fl 1 1).
  split; [|split].
  - intros f h s te sol. cbn [with_flag w_solve_ivp]. destruct (w_solve_ivp _ _ _ _ _); [|discriminate].
    intros E. injection E as <-. reflexivity.
  - vm_compute. reflexivity.
  - intros E. apply (f_equal (amap B2SF)) in E. vm_compute in E. discriminate.
Qed.
Print Assumptions C69_refuted.
