(** The test vector published with the F-16 model (Stevens and Lewis, Aircraft Control and
    Simulation). It is not part of the repository and is quoted from memory. The book's
    centre of gravity is at 0.4, the code fixes 0.35 (subf16_model.py 68), so the three
    angular accelerations are not compared. See Golden.v. *)
From Coq Require Import String List Bool ZArith SpecFloat.
From Verif Require Import PyBase Num Arr Aero F16 Golden.
Import List ListNotations.
Local Open Scope string_scope.
Local Hint Extern 0 (Num sf) => exact SF : typeclass_instances.

Definition f16_x : list sf :=
  [fl 500 1; fl 5 10; fl (-2) 10; fl (-1) 1; fl 1 1; fl (-1) 1; fl 7 10; fl (-8) 10; fl 9 10;
   fl 1000 1; fl 900 1; fl 10000 1; fl 90 1].
Definition f16_u : list sf := [fl 9 10; fl 20 1; fl (-15) 1; fl (-20) 1].
(** Derivatives of the speed, the two flow angles, the three Euler angles, the position and
    the power. *)
Definition f16_expected : list (nat * sf) :=
  [(0%nat, fl (-7523724) 100000); (1%nat, fl (-8813491) 10000000); (2%nat, fl (-4759990) 10000000);
   (3%nat, fl 2505734 1000000); (4%nat, fl 3250820 10000000); (5%nat, fl 2145926 1000000);
   (9%nat, fl 3424439 10000); (10%nat, fl (-2667707) 10000); (11%nat, fl 2481241 10000);
   (12%nat, fl (-5868999) 100000)].
Definition f16_check : bool :=
  match subf16_model f16_x f16_u "stevens" true with
  | Ok (xd, _, _, _, _) =>
      forallb (fun t : nat * sf => near false (fl 1 10000000) (fl 1 1000000) (snd t) (nth (fst t) xd S754_nan))
              f16_expected
  | Err _ => false
  end.
Theorem f16_check_passes : f16_check = true.
Proof. vm_compute. reflexivity. Qed.
