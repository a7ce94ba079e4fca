(* Expressions as text with powers of names: what pow2mult is to return. Definitions only. *)
From Coq Require Import Ascii String List Arith Bool.
From Verif Require Import Model_Pow.
Import ListNotations.

(* one character of an expression; a power w**d of a name or number w; a call pow(w, d) with spaces sp after the comma *)
Inductive piece := Char (c : ascii) | Power (w d : text) | Call (w sp d : text).
Definition shown1 (p : piece) : text :=
  match p with
  | Char c => [c]
  | Power w d => w ++ txt "**" ++ d
  | Call w sp d => txt "pow(" ++ w ++ txt "," ++ sp ++ d ++ txt ")"
  end.
Definition shown (l : list piece) : text := concat (map shown1 l).
(* the number of a row of digits *)
Fixpoint number (d : text) : nat := match d with [] => 0 | c :: r => (nat_of_ascii c - 48) * 10 ^ length r + number r end.
(* (w*w*...*w) with n factors, n > 0 *)
Definition factors (w : text) (n : nat) : text := txt "(" ++ w ++ concat (repeat (txt "*" ++ w) (n - 1)) ++ txt ")".
Definition multiplied1 (p : piece) : text :=
  match p with Char c => [c] | Power w d | Call w _ d => factors w (number d) end.
Definition multiplied (l : list piece) : text := concat (map multiplied1 l).
(* only the powers w**d, as mprint_as_array does *)
Definition powers_multiplied (l : list piece) : text := concat (map (fun p => match p with Call _ _ _ => shown1 p | _ => multiplied1 p end) l).

Definition word (w : text) : Prop := w <> [] /\ forallb is_word w = true.
Definition digits (d : text) : Prop := d <> [] /\ forallb is_digit d = true.
(* the character before: what a name cannot follow *)
Definition after_name (prev : option ascii) : bool := match prev with Some c => is_word c | None => false end.
Definition after_point (prev : option ascii) : bool := match prev with Some c => Ascii.eqb c "."%char | None => false end.
Definition ends (w : text) : option ascii := match rev w with c :: _ => Some c | [] => None end.
(* w nowhere contains p *)
Definition without (p w : text) : Prop := forall a b, w <> a ++ p ++ b.
(* an expression whose powers are the pieces Power and Call: no other power of a name, no other call of pow; names and numbers
   are whole (not the decimals of a number, no letters before pow) and exponents are positive integers *)
Fixpoint expression (prev : option ascii) (l : list piece) : Prop :=
  match l with
  | [] => True
  | Char c :: r =>
    ~ (after_name prev = true /\ starts (txt "**") (c :: shown r) = true) /\ starts (txt "pow(") (c :: shown r) = false /\ expression (Some c) r
  | Power w d :: r =>
    word w /\ digits d /\ 0 < number d /\ after_name prev = false /\ after_point prev = false /\
    (forall c, hd_error (shown r) = Some c -> is_word c = false /\ c <> "."%char) /\ expression (ends d) r
  | Call w sp d :: r =>
    word w /\ without (txt "pow") w /\ forallb is_space sp = true /\ digits d /\ 0 < number d /\ after_name prev = false /\ expression (Some ")"%char) r
  end.
