(** The polynomials of Morelli's F-16 model as lists of monomials
    (numerator, denominator, power of alpha, power of beta, power of the elevator). Nothing here is
    used by the model. *)
From Coq Require Import List ZArith Reals.
From Verif Require Import XReal.
Import ListNotations.
Local Open Scope R_scope.

Definition monomial := (Z * Z * nat * nat * nat)%type.
Definition poly (l : list monomial) (al be de : R) : R :=
  fold_right (fun m s => let '(z, d, i, j, k) := m in IZR z / IZR d * al ^ i * be ^ j * de ^ k + s) 0 l.

Definition p_Cx0 : list monomial :=
  [((-1943367)%Z, 100000000%Z, 0%nat, 0%nat, 0%nat);
   (2136104%Z, 10000000%Z, 1%nat, 0%nat, 0%nat);
   ((-2903457)%Z, 10000000%Z, 0%nat, 0%nat, 2%nat);
   ((-3348641)%Z, 1000000000%Z, 0%nat, 0%nat, 1%nat);
   ((-2060504)%Z, 10000000%Z, 1%nat, 0%nat, 1%nat);
   (6988016%Z, 10000000%Z, 2%nat, 0%nat, 0%nat);
   ((-9035381)%Z, 10000000%Z, 3%nat, 0%nat, 0%nat)].

Definition p_Cxq : list monomial :=
  [(4833383%Z, 10000000%Z, 0%nat, 0%nat, 0%nat);
   (8644627%Z, 1000000%Z, 1%nat, 0%nat, 0%nat);
   (1131098%Z, 100000%Z, 2%nat, 0%nat, 0%nat);
   ((-7422961)%Z, 100000%Z, 3%nat, 0%nat, 0%nat);
   (6075776%Z, 100000%Z, 4%nat, 0%nat, 0%nat)].

Definition Cy_beta : R := -1145916 / 1000000.
Definition Cy_ail : R := 6016057 / 100000000.
Definition Cy_rud : R := 1642479 / 10000000.

Definition p_Cyp : list monomial :=
  [((-1006733)%Z, 10000000%Z, 0%nat, 0%nat, 0%nat);
   (8679799%Z, 10000000%Z, 1%nat, 0%nat, 0%nat);
   (4260586%Z, 1000000%Z, 2%nat, 0%nat, 0%nat);
   ((-6923267)%Z, 1000000%Z, 3%nat, 0%nat, 0%nat)].

Definition p_Cyr : list monomial :=
  [(8071648%Z, 10000000%Z, 0%nat, 0%nat, 0%nat);
   (1189633%Z, 10000000%Z, 1%nat, 0%nat, 0%nat);
   (4177702%Z, 1000000%Z, 2%nat, 0%nat, 0%nat);
   ((-9162236)%Z, 1000000%Z, 3%nat, 0%nat, 0%nat)].

Definition p_Cz0 : list monomial :=
  [((-1378278)%Z, 10000000%Z, 0%nat, 0%nat, 0%nat);
   (1378278%Z, 10000000%Z, 0%nat, 2%nat, 0%nat);
   ((-4211369)%Z, 1000000%Z, 1%nat, 0%nat, 0%nat);
   (4211369%Z, 1000000%Z, 1%nat, 2%nat, 0%nat);
   (4775187%Z, 1000000%Z, 2%nat, 0%nat, 0%nat);
   ((-4775187)%Z, 1000000%Z, 2%nat, 2%nat, 0%nat);
   ((-1026225)%Z, 100000%Z, 3%nat, 0%nat, 0%nat);
   (1026225%Z, 100000%Z, 3%nat, 2%nat, 0%nat);
   (8399763%Z, 1000000%Z, 4%nat, 0%nat, 0%nat);
   ((-8399763)%Z, 1000000%Z, 4%nat, 2%nat, 0%nat);
   ((-4354)%Z, 10000%Z, 0%nat, 0%nat, 1%nat)].

Definition p_Czq : list monomial :=
  [((-3054956)%Z, 100000%Z, 0%nat, 0%nat, 0%nat);
   ((-4132305)%Z, 100000%Z, 1%nat, 0%nat, 0%nat);
   (3292788%Z, 10000%Z, 2%nat, 0%nat, 0%nat);
   ((-6848038)%Z, 10000%Z, 3%nat, 0%nat, 0%nat);
   (4080244%Z, 10000%Z, 4%nat, 0%nat, 0%nat)].

Definition p_Cl0 : list monomial :=
  [((-105853)%Z, 1000000%Z, 0%nat, 1%nat, 0%nat);
   ((-5776677)%Z, 10000000%Z, 1%nat, 1%nat, 0%nat);
   ((-1672435)%Z, 100000000%Z, 2%nat, 1%nat, 0%nat);
   (1357256%Z, 10000000%Z, 0%nat, 2%nat, 0%nat);
   (2172952%Z, 10000000%Z, 1%nat, 2%nat, 0%nat);
   (3464156%Z, 1000000%Z, 3%nat, 1%nat, 0%nat);
   ((-2835451)%Z, 1000000%Z, 4%nat, 1%nat, 0%nat);
   ((-1098104)%Z, 1000000%Z, 2%nat, 2%nat, 0%nat)].

Definition p_Clp : list monomial :=
  [((-4126806)%Z, 10000000%Z, 0%nat, 0%nat, 0%nat);
   ((-1189974)%Z, 10000000%Z, 1%nat, 0%nat, 0%nat);
   (1247721%Z, 1000000%Z, 2%nat, 0%nat, 0%nat);
   ((-7391132)%Z, 10000000%Z, 3%nat, 0%nat, 0%nat)].

Definition p_Clr : list monomial :=
  [(6250437%Z, 100000000%Z, 0%nat, 0%nat, 0%nat);
   (6067723%Z, 10000000%Z, 1%nat, 0%nat, 0%nat);
   ((-1101964)%Z, 1000000%Z, 2%nat, 0%nat, 0%nat);
   (9100087%Z, 1000000%Z, 3%nat, 0%nat, 0%nat);
   ((-1192672)%Z, 100000%Z, 4%nat, 0%nat, 0%nat)].

Definition p_Clda : list monomial :=
  [((-1463144)%Z, 10000000%Z, 0%nat, 0%nat, 0%nat);
   ((-407391)%Z, 10000000%Z, 1%nat, 0%nat, 0%nat);
   (3253159%Z, 100000000%Z, 0%nat, 1%nat, 0%nat);
   (4851209%Z, 10000000%Z, 2%nat, 0%nat, 0%nat);
   (297885%Z, 1000000%Z, 1%nat, 1%nat, 0%nat);
   ((-3746393)%Z, 10000000%Z, 2%nat, 1%nat, 0%nat);
   ((-3213068)%Z, 10000000%Z, 3%nat, 0%nat, 0%nat)].

Definition p_Cldr : list monomial :=
  [(2635729%Z, 100000000%Z, 0%nat, 0%nat, 0%nat);
   ((-219291)%Z, 10000000%Z, 1%nat, 0%nat, 0%nat);
   ((-3152901)%Z, 1000000000%Z, 0%nat, 1%nat, 0%nat);
   ((-5817803)%Z, 100000000%Z, 1%nat, 1%nat, 0%nat);
   (4516159%Z, 10000000%Z, 2%nat, 1%nat, 0%nat);
   ((-4928702)%Z, 10000000%Z, 3%nat, 1%nat, 0%nat);
   ((-1579864)%Z, 100000000%Z, 0%nat, 2%nat, 0%nat)].

Definition p_Cm0 : list monomial :=
  [((-202937)%Z, 10000000%Z, 0%nat, 0%nat, 0%nat);
   (4660702%Z, 100000000%Z, 1%nat, 0%nat, 0%nat);
   ((-6012308)%Z, 10000000%Z, 0%nat, 0%nat, 1%nat);
   ((-8062977)%Z, 100000000%Z, 1%nat, 0%nat, 1%nat);
   (8320429%Z, 100000000%Z, 0%nat, 0%nat, 2%nat);
   (5018538%Z, 10000000%Z, 2%nat, 0%nat, 1%nat);
   (6378864%Z, 10000000%Z, 0%nat, 0%nat, 3%nat);
   (4226356%Z, 10000000%Z, 1%nat, 0%nat, 2%nat)].

Definition p_Cmq : list monomial :=
  [((-519153)%Z, 100000%Z, 0%nat, 0%nat, 0%nat);
   ((-3554716)%Z, 1000000%Z, 1%nat, 0%nat, 0%nat);
   ((-3598636)%Z, 100000%Z, 2%nat, 0%nat, 0%nat);
   (2247355%Z, 10000%Z, 3%nat, 0%nat, 0%nat);
   ((-4120991)%Z, 10000%Z, 4%nat, 0%nat, 0%nat);
   (241175%Z, 1000%Z, 5%nat, 0%nat, 0%nat)].

Definition p_Cn0 : list monomial :=
  [(2993363%Z, 10000000%Z, 0%nat, 1%nat, 0%nat);
   (6594004%Z, 100000000%Z, 1%nat, 1%nat, 0%nat);
   ((-2003125)%Z, 10000000%Z, 0%nat, 2%nat, 0%nat);
   ((-6233977)%Z, 100000000%Z, 1%nat, 2%nat, 0%nat);
   ((-2107885)%Z, 1000000%Z, 2%nat, 1%nat, 0%nat);
   (214142%Z, 100000%Z, 2%nat, 2%nat, 0%nat);
   (8476901%Z, 10000000%Z, 3%nat, 1%nat, 0%nat)].

Definition p_Cnp : list monomial :=
  [(2677652%Z, 100000000%Z, 0%nat, 0%nat, 0%nat);
   ((-3298246)%Z, 10000000%Z, 1%nat, 0%nat, 0%nat);
   (1926178%Z, 10000000%Z, 2%nat, 0%nat, 0%nat);
   (4013325%Z, 1000000%Z, 3%nat, 0%nat, 0%nat);
   ((-4404302)%Z, 1000000%Z, 4%nat, 0%nat, 0%nat)].

Definition p_Cnr : list monomial :=
  [((-3698756)%Z, 10000000%Z, 0%nat, 0%nat, 0%nat);
   ((-1167551)%Z, 10000000%Z, 1%nat, 0%nat, 0%nat);
   ((-7641297)%Z, 10000000%Z, 2%nat, 0%nat, 0%nat)].

Definition p_Cnda : list monomial :=
  [((-3348717)%Z, 100000000%Z, 0%nat, 0%nat, 0%nat);
   (4276655%Z, 100000000%Z, 1%nat, 0%nat, 0%nat);
   (6573646%Z, 1000000000%Z, 0%nat, 1%nat, 0%nat);
   (3535831%Z, 10000000%Z, 1%nat, 1%nat, 0%nat);
   ((-1373308)%Z, 1000000%Z, 2%nat, 1%nat, 0%nat);
   (1237582%Z, 1000000%Z, 3%nat, 1%nat, 0%nat);
   (2302543%Z, 10000000%Z, 2%nat, 0%nat, 0%nat);
   ((-2512876)%Z, 10000000%Z, 3%nat, 0%nat, 0%nat);
   (1588105%Z, 10000000%Z, 0%nat, 3%nat, 0%nat);
   ((-5199526)%Z, 10000000%Z, 1%nat, 3%nat, 0%nat)].

Definition p_Cndr : list monomial :=
  [((-8115894)%Z, 100000000%Z, 0%nat, 0%nat, 0%nat);
   ((-115658)%Z, 10000000%Z, 1%nat, 0%nat, 0%nat);
   (2514167%Z, 100000000%Z, 0%nat, 1%nat, 0%nat);
   (2038748%Z, 10000000%Z, 1%nat, 1%nat, 0%nat);
   ((-3337476)%Z, 10000000%Z, 2%nat, 1%nat, 0%nat);
   (1004297%Z, 10000000%Z, 2%nat, 0%nat, 0%nat)].

(** Saturation in degrees. *)
Definition within (lo hi x : R) : R := Rmax (lo * PI / 180) (Rmin (hi * PI / 180) x).

Definition morelli (al be de da dr p q r cbar b V xcg xcgref : R) : R * R * R * R * R * R :=
  let ph := p * b / (2 * V) in
  let qh := q * cbar / (2 * V) in
  let rh := r * b / (2 * V) in
  let P l := poly l al be de in
  let cx := P p_Cx0 + P p_Cxq * qh in
  let cy := Cy_beta * be + Cy_ail * da + Cy_rud * dr + P p_Cyp * ph + P p_Cyr * rh in
  let cz := P p_Cz0 + P p_Czq * qh in
  (cx, cy, cz,
   P p_Cl0 + P p_Clp * ph + P p_Clr * rh + P p_Clda * da + P p_Cldr * dr,
   P p_Cm0 + P p_Cmq * qh + cz * (xcgref - xcg),
   P p_Cn0 + P p_Cnp * ph + P p_Cnr * rh + P p_Cnda * da + P p_Cndr * dr
     - cy * (xcgref - xcg) * (cbar / b)).

Definition fin6 (c : R * R * R * R * R * R) : xr * xr * xr * xr * xr * xr :=
  let '(c1, c2, c3, c4, c5, c6) := c in (Fin c1, Fin c2, Fin c3, Fin c4, Fin c5, Fin c6).
