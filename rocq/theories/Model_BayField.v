(* Displacement fields and external forces of a stiffened bay: /repo/panels/stiffpanelbay/stiffpanelbay.py,
   uvw_skin, uvw_stiffener and calc_fext. Definitions only. That the fields are also kept on the object is
   not modelled. Points are given as arrays (a Python list has no attribute shape). *)
From Coq Require Import Reals List Arith Bool.
From Verif Require Import Base_Sum Model_Types Model_Result Model_Num Model_DB Model_Shell Model_Field Model_Fext Model_Bay.
Import ListNotations.
Open Scope R_scope.

(* stiffpanelbay.py:181-197 and :846-849, :937-940: the mesh unless both arrays are given; in that case
   they are used as they are. a and b: the lengths of the mesh *)
Definition bay_points (a b : R) (xs ys : option ndarray) (gridx gridy : nat) : ndarray * ndarray :=
  match xs, ys with Some X, Some Y => (X, Y) | _, _ => meshgrid (linspace a gridx) (linspace b gridy) end.
(* arrays made by _default_field are raveled; given ones must have one dimension for `double [::1]`:
   ValueError from Cython otherwise *)
Definition one_dim (X : ndarray) : bool := (length (fst X) =? 1)%nat.
Definition points_accepted (xs ys : option ndarray) : bool :=
  match xs, ys with Some X, Some Y => (one_dim X && one_dim Y)%bool | _, _ => true end.

(* stiffpanelbay.py:801-866 uvw_skin. The bay itself is given to fuvw, which reads a, b, m, n and the
   boundary flags. *)
Definition bay_uvw_skin (sched : scheduler) (Bs : basis) (nc : nat) (c : list R) (xs ys : option ndarray) (gridx gridy : nat) :
    bmethod ((ndarray * ndarray) * list (list R)) :=
  bay_do B <- bget;
  let XY := bay_points (sh_a (by_sh B)) (sh_b (by_sh B)) xs ys gridx gridy in
  bay_do c' <- skin_constants c;
  if points_accepted xs ys then
    bay_do f <- blift (fuvw sched Bs c' (by_sh B) (snd (fst XY)) (snd (snd XY)) nc);
    bret (XY, f)
  else braise ValueError.

(* the argument region, in lower case *)
Inductive region := Flange | Base | OtherRegion.
(* stiffpanelbay.py:869-965 uvw_stiffener *)
Definition bay_uvw_stiffener (sched : scheduler) (Bs : basis) (nc : nat) (c : list R) (si : nat) (rg : region)
    (xs ys : option ndarray) (gridx gridy : nat) : bmethod ((ndarray * ndarray) * list (list R)) :=
  bay_do B <- bget;
  match nth_error (by_order B) si with
  | None => braise IndexError
  | Some true => braise RuntimeError
  | Some false =>
    match rg with
    | Base => braise RuntimeError
    | OtherRegion =>
      bay_do _ <- blift (skin_size B);
      if existsb negb (skipn 1 (firstn (S si) (by_order B))) then braise AttributeError else braise ValueError
    | Flange =>
      bay_do c' <- stiffener_constants c si;
      bay_do s <- get_s2 (length (filter negb (firstn si (by_order B))));
      match s2_flange s with
      | None => braise AttributeError
      | Some q =>
        let XY := bay_points (sh_a (by_sh B)) (sh_b (pn_sh q)) xs ys gridx gridy in
        if points_accepted xs ys then
          bay_do f <- blift (fuvw sched Bs c' (kernel_view q) (snd (fst XY)) (snd (snd XY)) nc);
          bret (XY, f)
        else braise ValueError
      end
    end
  end.

(* stiffpanelbay.py:1430-1504 calc_fext. The function fg refuses every object whose class is not Shell
   (clpt_bardell_field.pyx:317-318), and writes five rows (:379-383) into the three of
   g and g_flange. A Shell has no attribute `forces`: `ff j` is what the user
   has assigned to that attribute of the flange j, None when nothing. *)
Fixpoint flange_forces (ff : nat -> option (list pload)) (j k : nat) (acc : list R) : bmethod (list R) :=
  match k with
  | 0%nat => bret acc
  | S k' =>
    bay_do B <- bget;
    bay_do s <- get_s2 j;
    match s2_flange s with
    | None => braise AttributeError
    | Some q =>
      bay_do n <- on_flange j get_size;
      match ff j with
      | None => braise AttributeError
      | Some (_ :: _) => braise OutOfBounds
      | Some [] => flange_forces ff (S j) k' (acc ++ repeat 0 (default 0%nat n))
      end
    end
  end.
Definition bay_fext (ff : nat -> option (list pload)) : bmethod (list R) :=
  bay_do B <- bget;
  bay_do k <- blift (skin_size B);
  match by_forces B with
  | _ :: _ => braise ValueError
  | [] => flange_forces ff 0 (length (by_s2 B)) (repeat 0 k)
  end.
