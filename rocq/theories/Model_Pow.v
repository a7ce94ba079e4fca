(* panels/dev/matrixtools.py:8-44 pow2mult, the tool that writes the expressions of the kernels. A str is a list of characters.
   Not modelled: characters beyond ASCII; the rest of mprint_as_sparse and mprint_as_array, which needs sympy. *)
From Coq Require Import Ascii String List Arith Bool.
From Verif Require Import Model_Result.
Import ListNotations.

Definition text := list ascii.
Definition txt (s : string) : text := list_ascii_of_string s.
Definition code (c : ascii) : nat := nat_of_ascii c.
Definition between (a b : nat) (c : ascii) : bool := (a <=? code c) && (code c <=? b).
(* re: \d, \w and \s of ASCII *)
Definition is_digit (c : ascii) : bool := between 48 57 c.
Definition is_word (c : ascii) : bool := is_digit c || between 65 90 c || between 97 122 c || (code c =? 95).
Definition is_space (c : ascii) : bool := between 9 13 c || between 28 32 c.

(* the longest beginning whose characters satisfy f, and the rest: a greedy f* *)
Fixpoint span (f : ascii -> bool) (s : text) : text * text :=
  match s with
  | c :: s' => if f c then let '(a, b) := span f s' in (c :: a, b) else ([], s)
  | [] => ([], [])
  end.
Fixpoint starts (p s : text) : bool :=
  match p, s with
  | [], _ => true
  | c :: p', d :: s' => if ascii_dec c d then starts p' s' else false
  | _ :: _, [] => false
  end.
(* str.replace(old, new) for old that is not empty: from the left, without overlap. skip characters belong to a match *)
Fixpoint replace (old new : text) (skip : nat) (s : text) : text :=
  match s, skip with
  | [], _ => []
  | _ :: s', S k => replace old new k s'
  | c :: s', 0 => if starts old s then new ++ replace old new (pred (length old)) s' else c :: replace old new 0 s'
  end.
(* re.findall: matches from the left, without overlap. at s is the match at the beginning of s with its length *)
Fixpoint findall {T} (at_ : text -> option (T * nat)) (skip : nat) (s : text) : list T :=
  match s, skip with
  | [], _ => []
  | _ :: s', S k => findall at_ k s'
  | _ :: s', 0 => match at_ s with Some (t, n) => t :: findall at_ (pred n) s' | None => findall at_ 0 s' end
  end.

(* matrixtools.py:25-26: \w+\*\*\d+, and p.split('**'), which has two parts as neither holds a star *)
Definition pow_at (s : text) : option ((text * text) * nat) :=
  match span is_word s with
  | (c :: w, "*"%char :: "*"%char :: r) =>
    match span is_digit r with (x :: d, _) => Some ((c :: w, x :: d), length (c :: w) + 2 + length (x :: d)) | ([], _) => None end
  | _ => None
  end.
(* int(exp) for digits *)
Definition dec (d : text) : nat := fold_left (fun n c => 10 * n + (code c - 48)) d 0.
(* '*'.join([var]*n) *)
Fixpoint join (w : text) (n : nat) : text := match n with 0 => [] | 1 => w | S n' => w ++ txt "*" ++ join w n' end.
(* matrixtools.py:27: a product of n factors in parentheses *)
Definition product (w : text) (n : nat) : text := txt "(" ++ join w n ++ txt ")".
Definition power (p : text * text) : text := fst p ++ txt "**" ++ snd p.
(* matrixtools.py:31: sorted by length, stable, and reversed *)
Fixpoint insert (p : text * text) (l : list (text * text)) : list (text * text) :=
  match l with
  | [] => [p]
  | q :: l' => if length (power p) <=? length (power q) then p :: l else q :: insert p l'
  end.
Definition longest_first (l : list (text * text)) : list (text * text) := rev (fold_right insert [] l).

(* matrixtools.py:37: pow\(\w+,\s*\w+\), without the parentheses *)
Definition call_at (s : text) : option ((text * text * text) * nat) :=
  if starts (txt "pow(") s then
    match span is_word (skipn 4 s) with
    | (c :: w, ","%char :: r) =>
      let '(sp, r2) := span is_space r in
      match span is_word r2 with
      | (x :: e, ")"%char :: _) => Some ((c :: w, sp, x :: e), 4 + length (c :: w) + 1 + length sp + length (x :: e) + 1)
      | _ => None
      end
    | _ => None
    end
  else None.
Definition call (q : text * text * text) : text := let '(w, sp, e) := q in txt "pow(" ++ w ++ txt "," ++ sp ++ e ++ txt ")".
(* the part of s before the first old: s.split(old)[0] *)
Fixpoint before (old s : text) : text :=
  match s with
  | [] => []
  | c :: s' => if starts old s then [] else c :: before old s'
  end.
(* var, exp = ... .split(','): an error unless there are two parts *)
Definition two_parts (s : text) : option (text * text) :=
  match span (fun c => negb (Ascii.eqb c ","%char)) s with
  | (a, _ :: b) => if existsb (Ascii.eqb ","%char) b then None else Some (a, b)
  | _ => None
  end.
(* int(exp): spaces around, digits, single underscores between digits; everything else is a ValueError *)
Fixpoint int_digits (s : text) : option text :=
  match s with
  | [] => None
  | c :: s' =>
    if is_digit c then
      match s' with
      | [] => Some [c]
      | "_"%char :: s'' => match int_digits s'' with Some d => Some (c :: d) | None => None end
      | _ => match int_digits s' with Some d => Some (c :: d) | None => None end
      end
    else None
  end.
Definition int_of (s : text) : res nat :=
  match int_digits (snd (span is_space s)) with Some d => Ok (dec d) | None => Err ValueError end.
(* matrixtools.py:38-39: split('pow')[1] is what follows the first pow up to a second one, split('(')[1] drops the parenthesis *)
Definition call_new (q : text * text * text) : res text :=
  let '(w, sp, e) := q in
  match two_parts (before (txt ")") (before (txt "pow") (w ++ txt "," ++ sp ++ e ++ txt ")"))) with
  | Some (v, x) => match int_of x with Ok n => Ok (product v n) | Err err => Err err end
  | None => Err ValueError
  end.
Fixpoint each_new (l : list (text * text * text)) : res (list (text * text)) :=
  match l with
  | [] => Ok []
  | q :: l' => match call_new q with
               | Err err => Err err
               | Ok new => match each_new l' with Ok r => Ok ((call q, new) :: r) | Err err => Err err end
               end
  end.
Definition replace_all (l : list (text * text)) (s : text) : text := fold_left (fun s on => replace (fst on) (snd on) 0 s) l s.
(* matrixtools.py:8-44 pow2mult *)
Definition pow2mult (s : text) : res text :=
  let out := replace_all (map (fun p => (power p, product (fst p) (dec (snd p)))) (longest_first (findall pow_at 0 s))) s in
  match each_new (findall call_at 0 s) with
  | Ok l => Ok (replace_all l out)
  | Err err => Err err
  end.
(* matrixtools.py:159-161, the same in mprint_as_array: only w**d, in the order in which they are found *)
Definition array_powers (s : text) : text :=
  replace_all (map (fun p => (power p, product (fst p) (dec (snd p)))) (findall pow_at 0 s)) s.
