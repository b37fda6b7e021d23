(** Specification vocabulary: vehicles that fly turned or mirrored copies of a path. Nothing here
    is used by the model. *)
From Coq Require Import String List Bool Arith ZArith Reals.
From Verif Require Import PyBase Num Arr BaseModel XReal SpecWrap SpecRk.
Import ListNotations.
Local Open Scope R_scope.

(** A relation between vectors of the first and of the second vehicle. *)
Definition vrel : Type := list R -> list R -> Prop.

(** ** Turning the map by the angle [phi] *)
Definition rot_x (phi x y : R) : R := cos phi * x - sin phi * y.
Definition rot_y (phi x y : R) : R := sin phi * x + cos phi * y.

(** States of Dubins2dAircraft [x, y, heading, v]; the heading is an angle. *)
Definition turned2 (phi : R) : vrel := fun s s' =>
  exists x y hd v hd', s = [x; y; hd; v] /\ s' = [rot_x phi x y; rot_y phi x y; hd'; v] /\
    same_angle (hd + phi) hd'.
Definition turned2_rate (phi : R) : vrel := fun k k' =>
  exists a b c d, k = [a; b; c; d] /\ k' = [rot_x phi a b; rot_y phi a b; c; d].
(** States of Dubins3dAircraft [x, y, z, heading, gamma, roll, v]. *)
Definition turned3 (phi : R) : vrel := fun s s' =>
  exists x y z hd ga ro v hd', s = [x; y; z; hd; ga; ro; v] /\
    s' = [rot_x phi x y; rot_y phi x y; z; hd'; ga; ro; v] /\ same_angle (hd + phi) hd'.
Definition turned3_rate (phi : R) : vrel := fun k k' =>
  exists a b c d e f g, k = [a; b; c; d; e; f; g] /\ k' = [rot_x phi a b; rot_y phi a b; c; d; e; f; g].

(** ** Mirror images: change the sign of some elements *)
Definition flip (sg s : list R) : list R := zipw Rmult sg s.
Definition flipped (sg : list R) : vrel := fun s s' => length s = length sg /\ s' = flip sg s.
(** Dubins aircraft: left and right exchanged. *)
Definition mirrored2 : vrel := fun s s' =>
  exists x y hd v hd', s = [x; y; hd; v] /\ s' = [x; - y; hd'; v] /\ same_angle (- hd) hd'.
Definition mirrored3 : vrel := fun s s' =>
  exists x y z hd ga ro v hd', s = [x; y; z; hd; ga; ro; v] /\ s' = [x; - y; z; hd'; ga; - ro; v] /\
    same_angle (- hd) hd'.

(** ** Solvers and runs *)
(** Two vector fields whose values at related points are related. *)
Definition related_fields (S D : vrel) (f f' : xr -> arr xr -> res (arr xr)) : Prop :=
  forall t q q', S q q' -> exists k k', f (Fin t) (A1 (map Fin q)) = Ok (A1 (map Fin k)) /\
    f' (Fin t) (A1 (map Fin q')) = Ok (A1 (map Fin k')) /\ D k k'.
(** The adaptive solver of [w] turns related fields and related starts into related rows. True of
    every Runge-Kutta method with fixed steps when the relation is compatible with vector
    addition. *)
Definition equivariant_solver (S D : vrel) (w : world xr) : Prop :=
  forall f f' s s' h te, related_fields S D f f' -> S s s' ->
  match w_solve_ivp w f (Fin h) (A1 (map Fin s)) te, w_solve_ivp w f' (Fin h) (A1 (map Fin s')) te with
  | Ok r, Ok r' => Forall2 (fun a b => exists q q', a = map Fin q /\ b = map Fin q' /\ S q q') (sol_y r) (sol_y r')
  | Err x, Err y => x = y
  | _, _ => False
  end.

(** A list of steps: step size and control vector. *)
Definition array_acts (l : list (R * list R)) : list (xr * action xr) :=
  map (fun p => (Fin (fst p), AArr (A1 (map Fin (snd p))))) l.
Definition flip_acts (sg : list R) (l : list (R * list R)) : list (R * list R) :=
  map (fun p => (fst p, flip sg (snd p))) l.

(** Both runs succeed, and end in related states with related derivatives, or both raise the same
    exception. *)
Definition related_runs (S D : vrel) (r r' : res (entity xr)) : Prop :=
  match r, r' with
  | Ok e, Ok e' => exists s s' k k', e_state e = A1 (map Fin s) /\ e_state e' = A1 (map Fin s') /\ S s s' /\
      e_sdot e = A1 (map Fin k) /\ e_sdot e' = A1 (map Fin k') /\ D k k'
  | Err x, Err y => x = y
  | _, _ => False
  end.
(** Moreover nothing is raised by the Euler method when no trajectory samples are asked for. *)
Definition paired_runs (method : string) (samples : Z) (S D : vrel) (r r' : res (entity xr)) : Prop :=
  related_runs S D r r' /\ (method = "Euler"%string -> (samples <= 0)%Z -> is_ok r = true).
(** Steps are taken with the Euler method, or with a solver as above. *)
Definition fair (S D : vrel) (method : string) (w : world xr) : Prop :=
  method = "Euler"%string \/ method = "RK45"%string /\ equivariant_solver S D w.

(** Every element of the list is 1 or -1. *)
Definition signs (sg : list R) : Prop := Forall (fun s => s = 1 \/ s = -1) sg.
(** CWHRotation2dSpacecraft [x, y, theta, x_dot, y_dot, wz]: half a turn about the origin of the
    relative frame, the craft keeping its heading; its forces change sign. *)
Definition rot_sg : list R := [-1; -1; 1; -1; -1; 1].
(** SixDOFSpacecraft: the mirror image through the orbital plane. Positions and velocities are
    vectors; the angular velocity and the vector part of the quaternion are axial. *)
Definition six_sg : list R := [1; 1; -1; -1; -1; 1; 1; 1; 1; -1; -1; -1; 1].
Definition six_ug : list R := [1; 1; -1; -1; -1; 1].

(** Whenever both constructors succeed, the runs are related, whatever the commands. *)
Definition flipped_runs (method : string) (samples : Z) (sg ug : list R) (w : world xr) (c c' : res (entity xr)) : Prop :=
  forall e e' acts, c = Ok e -> c' = Ok e' -> Forall (fun p : R * list R => length (snd p) = length ug) acts ->
    paired_runs method samples (flipped sg) (flipped sg) (run (N := XR Fin) w e (array_acts acts)) (run (N := XR Fin) w e' (array_acts (flip_acts ug acts))).
