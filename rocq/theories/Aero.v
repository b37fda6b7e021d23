(** Table lookups and engine functions of safe_autonomy_dynamics/external/aerobench:
    util.py 198-221 and lowlevel/{cx,cy,cz,cm,cl,cn,dlda,dldr,dnda,dndr,dampp,thrust,
    tgear,rtau,pdot,adc}.py. Arguments are floats (Python or numpy scalars); the
    [isinstance(ele, float)] check of [fix] is therefore not modelled. *)
From Coq Require Import List ZArith Bool.
From Verif Require Import PyBase Num AeroTables.
Import ListNotations.
Local Open Scope Z_scope.

Section Aero.
  Context {T : Type} {N : Num T}.

  (** util.py 198-208 [fix]: [int(floor(ele))] or [int(ceil(ele))]; raises on nan and inf. *)
  Definition fix_ (ele : T) : res Z :=
    if nltb n0 ele then nfloorZ ele else nceilZ ele.

  (** util.py 211-221 [sign] *)
  Definition sign_ (ele : T) : Z :=
    if nltb ele n0 then -1 else if neqb ele n0 then 0 else 1.

  (** Element [i] of a one-dimensional numpy array: negative indices count from the end. *)
  Definition py_index {A} (l : list A) (i : Z) : res A :=
    let n := Z.of_nat (length l) in
    let j := if i <? 0 then i + n else i in
    if (0 <=? j) && (j <? n) then
      match nth_error l (Z.to_nat j) with Some a => Ok a | None => Err IndexError end
    else Err IndexError.

  (** A table entry is a decimal literal. *)
  Definition lit (q : Z * positive) : T := nlit (fst q) (snd q).

  (** [a\[k, m\]] of a transposed table kept as written (AeroTables.v). *)
  Definition tget (a : table) (k m : Z) : res T :=
    row <- py_index a m ;; rmap lit (py_index row k).

  (** The lines [k = fix(s); if k <= lo: k = lo + 1; if k >= hi: k = hi - 1;
      da = s - k; l = k + fix(1.1 * sign(da))], which every lookup repeats for each of its
      arguments: cx.py 36-45 and 46-55, cz.py 27-37, cm.py 35-45 and 46-56,
      cl.py 37-47, cn.py 37-47, dlda.py 38-47 and 48-57, dldr.py 38-47 and 48-58,
      dnda.py 38-48 and 49-58, dndr.py 38-47 and 48-57, dampp.py 40-50. *)
  Definition cell (lo hi : Z) (s : T) : res (Z * T * Z) :=
    k <- fix_ s ;;
    let k := if k <=? lo then lo + 1 else k in
    let k := if hi <=? k then hi - 1 else k in
    let d := nsub s (nZ k) in
    g <- fix_ (nmul (nlit 11 10) (nZ (sign_ d))) ;;
    Ok (k, d, k + g).

  (** The lines [t = a\[k-1, m-1\]; u = a\[k-1, n-1\]; v = t + abs(da) * (a\[l-1, m-1\] - t);
      w = u + abs(da) * (a\[l-1, n-1\] - u); v + (w - v) * abs(de)]: cx.py 60-64,
      cm.py 61-66, cl.py 62-66, cn.py 63-68, dlda.py 62-67, dldr.py 63-69, dnda.py 63-68,
      dndr.py 62-66. *)
  Definition blend (a : table) (k l m n : Z) (da de : T) : res T :=
    t <- tget a (k - 1) (m - 1) ;;
    u <- tget a (k - 1) (n - 1) ;;
    tl <- tget a (l - 1) (m - 1) ;;
    let v := nadd t (nmul (nabs da) (nsub tl t)) in
    ul <- tget a (l - 1) (n - 1) ;;
    let w := nadd u (nmul (nabs da) (nsub ul u)) in
    Ok (nadd v (nmul (nsub w v) (nabs de))).

  (** cx.py 22-66 *)
  Definition cx (alpha el : T) : res T :=
    '(k, da, l) <- cell (-2) 9 (nmul (nlit 2 10) alpha) ;;
    '(m, de, n) <- cell (-2) 2 (ndiv el (nZ 12)) ;;
    blend cx_table (k + 3) (l + 3) (m + 3) (n + 3) da de.

  (** cm.py 21-66 *)
  Definition cm (alpha el : T) : res T :=
    '(k, da, l) <- cell (-2) 9 (nmul (nlit 2 10) alpha) ;;
    '(m, de, n) <- cell (-2) 2 (ndiv el (nZ 12)) ;;
    blend cm_table (k + 3) (l + 3) (m + 3) (n + 3) da de.

  (** cy.py 17-20 *)
  Definition cy (beta ail rdr : T) : T :=
    nadd (nadd (nmul (nlit (-2) 100) beta) (nmul (nlit 21 1000) (ndiv ail (nZ 20))))
         (nmul (nlit 86 1000) (ndiv rdr (nZ 30))).

  (** cz.py 22-42; the square is a product. *)
  Definition cz (alpha beta el : T) : res T :=
    '(k, da, l) <- cell (-2) 9 (nmul (nlit 2 10) alpha) ;;
    let l := l + 3 in
    let k := k + 3 in
    ak <- rmap lit (py_index cz_table (k - 1)) ;;
    al <- rmap lit (py_index cz_table (l - 1)) ;;
    let s := nadd ak (nmul (nabs da) (nsub al ak)) in
    let b := ndiv beta (nlit 573 10) in
    Ok (nsub (nmul s (nsub n1 (nmul b b))) (nmul (nlit 19 100) (ndiv el (nZ 25)))).

  (** cl.py 48-57 / cn.py 48-58: the sideslip cell of [cl] and [cn]. *)
  Definition beta_cell (s : T) : res (Z * T * Z) :=
    m <- fix_ s ;;
    let m := if m =? 0 then 1 else m in
    let m := if 6 <=? m then 5 else m in
    let db := nsub s (nZ m) in
    g <- fix_ (nmul (nlit 11 10) (nZ (sign_ db))) ;;
    Ok (m, db, m + g).

  (** cl.py 22-68 *)
  Definition cl (alpha beta : T) : res T :=
    '(k, da, l) <- cell (-2) 9 (nmul (nlit 2 10) alpha) ;;
    '(m, db, n) <- beta_cell (nmul (nlit 2 10) (nabs beta)) ;;
    dum <- blend cl_table (k + 3) (l + 3) (m + 1) (n + 1) da db ;;
    Ok (nmul dum (nZ (sign_ beta))).

  (** cn.py 22-70 *)
  Definition cn (alpha beta : T) : res T :=
    '(k, da, l) <- cell (-2) 9 (nmul (nlit 2 10) alpha) ;;
    '(m, db, n) <- beta_cell (nmul (nlit 2 10) (nabs beta)) ;;
    dum <- blend cn_table (k + 3) (l + 3) (m + 1) (n + 1) da db ;;
    Ok (nmul dum (nZ (sign_ beta))).

  (** dlda.py 22-67 *)
  Definition dlda (alpha beta : T) : res T :=
    '(k, da, l) <- cell (-2) 9 (nmul (nlit 2 10) alpha) ;;
    '(m, db, n) <- cell (-3) 3 (nmul (nlit 1 10) beta) ;;
    blend dlda_table (k + 3) (l + 3) (m + 4) (n + 4) da db.

  (** dldr.py 22-69 *)
  Definition dldr (alpha beta : T) : res T :=
    '(k, da, l) <- cell (-2) 9 (nmul (nlit 2 10) alpha) ;;
    '(m, db, n) <- cell (-3) 3 (nmul (nlit 1 10) beta) ;;
    blend dldr_table (k + 3) (l + 3) (m + 4) (n + 4) da db.

  (** dnda.py 22-68 *)
  Definition dnda (alpha beta : T) : res T :=
    '(k, da, l) <- cell (-2) 9 (nmul (nlit 2 10) alpha) ;;
    '(m, db, n) <- cell (-3) 3 (nmul (nlit 1 10) beta) ;;
    blend dnda_table (k + 3) (l + 3) (m + 4) (n + 4) da db.

  (** dndr.py 22-66 *)
  Definition dndr (alpha beta : T) : res T :=
    '(k, da, l) <- cell (-2) 9 (nmul (nlit 2 10) alpha) ;;
    '(m, db, n) <- cell (-3) 3 (nmul (nlit 1 10) beta) ;;
    blend dndr_table (k + 3) (l + 3) (m + 4) (n + 4) da db.

  (** dampp.py 22-59 *)
  Definition dampp (alpha : T) : res (list T) :=
    '(k, da, l) <- cell (-2) 9 (nmul (nlit 2 10) alpha) ;;
    let k := k + 3 in
    let l := l + 3 in
    mapM (fun i : Z =>
            ak <- tget dampp_table (k - 1) i ;;
            al <- tget dampp_table (l - 1) i ;;
            Ok (nadd ak (nmul (nabs da) (nsub al ak))))
         [0; 1; 2; 3; 4; 5; 6; 7; 8].

  (** thrust.py 75-77 / 80-82 / 85-87: one table at the cell [(i, m)]. *)
  Definition thrust_at (a : table) (i m : Z) (dh cdh dm : T) : res T :=
    a00 <- tget a i m ;;
    a10 <- tget a (i + 1) m ;;
    let s := nadd (nmul a00 cdh) (nmul a10 dh) in
    a01 <- tget a i (m + 1) ;;
    a11 <- tget a (i + 1) (m + 1) ;;
    let t := nadd (nmul a01 cdh) (nmul a11 dh) in
    Ok (nadd s (nmul (nsub t s) dm)).

  (** thrust.py 22-90 *)
  Definition thrust (power alt rmach : T) : res T :=
    let alt := if nltb alt n0 then nlit 1 100 else alt in
    let h := nmul (nlit 1 10000) alt in
    i <- fix_ h ;;
    let i := if 5 <=? i then 4 else i in
    let dh := nsub h (nZ i) in
    let rm := nmul (nZ 5) rmach in
    m <- fix_ rm ;;
    let m := if 5 <=? m then 4 else if m <=? 0 then 0 else m in
    let dm := nsub rm (nZ m) in
    let cdh := nsub n1 dh in
    tmil <- thrust_at thrust_b i m dh cdh dm ;;
    if nltb power (nZ 50) then
      tidl <- thrust_at thrust_a i m dh cdh dm ;;
      Ok (nadd tidl (nmul (nmul (nsub tmil tidl) power) (nlit 2 100)))
    else
      tmax <- thrust_at thrust_c i m dh cdh dm ;;
      Ok (nadd tmil (nmul (nmul (nsub tmax tmil) (nsub power (nZ 50))) (nlit 2 100))).

  (** tgear.py 17-25 *)
  Definition tgear (thtl : T) : T :=
    if nleb thtl (nlit 77 100) then nmul (nlit 6494 100) thtl
    else nsub (nmul (nlit 21738 100) thtl) (nlit 11738 100).

  (** rtau.py 18-28 *)
  Definition rtau (dp : T) : T :=
    if nleb dp (nZ 25) then n1
    else if nleb (nZ 50) dp then nlit 1 10
    else nsub (nlit 19 10) (nmul (nlit 36 1000) dp).

  (** pdot.py 20-40 *)
  Definition pdot (p3 p1 : T) : T :=
    let '(t, p2) :=
      if nleb (nZ 50) p1 then
        if nleb (nZ 50) p3 then (nZ 5, p1)
        else (rtau (nsub (nZ 60) p3), nZ 60)
      else
        if nleb (nZ 50) p3 then (nZ 5, nZ 40)
        else (rtau (nsub p1 p3), p1) in
    nmul t (nsub p2 p3).

  (** adc.py 19-48. [t] is positive on both branches (above 35000 ft it is 390), so [math.sqrt]
      never raises; [-inf] and nan altitudes give inf and nan.
      [tfac**4.14] with a negative base is nan, as for numpy scalars. *)
  Definition adc (vt alt : T) : T * T :=
    let ro := nlit 2377 1000000 in
    let tfac := nsub n1 (nmul (nlit 703 100000000) alt) in
    let t := if nleb (nZ 35000) alt then nZ 390 else nmul (nZ 519) tfac in
    let rho := nmul ro (npow tfac (nlit 414 100)) in
    let a := nsqrt (nmul (nmul (nlit 14 10) (nlit 17163 10)) t) in
    let amach := ndiv vt a in
    let qbar := nmul (nmul (nmul (nlit 5 10) rho) vt) vt in
    (amach, qbar).
End Aero.
