(* C107: powers in generated expressions are replaced by products. *)
From Coq Require Import Ascii String List Arith Bool Lia.
From Verif Require Import Model_Result Model_Pow Spec_Pow Proof_Pow.
Import ListNotations.

(* every w**d and pow(w, d) becomes (w*w*...*w) with d factors, and nothing else changes *)
Theorem C107_powers_become_products : forall l, expression None l -> pow2mult (shown l) = Ok (multiplied l).
Proof. exact multiplies. Qed.
Print Assumptions C107_powers_become_products.
(* an expression without powers is returned as it is *)
Theorem C107_no_powers : forall s, expression None (map Char s) -> pow2mult s = Ok s.
Proof. intros s H. pose proof (multiplies _ H) as HM. destruct (plain s) as [H1 H2]. rewrite H1, H2 in HM. exact HM. Qed.
Print Assumptions C107_no_powers.
(* mprint_as_array: the same for w**d, if no power is written as a part of another one *)
Theorem C107_array_powers_become_products_partial : forall l, expression None l ->
  (forall w d w1 d1, In (Power w d) l -> In (Power w1 d1) l -> (w, d) = (w1, d1) \/ without (shown1 (Power w1 d1)) (shown1 (Power w d))) ->
  array_powers (shown l) = powers_multiplied l.
Proof. exact array_multiplies. Qed.
Print Assumptions C107_array_powers_become_products_partial.

(* a**2*b + ax**12/x**2 + pow(x,  3)*(a+b)**2: a power that is a part of another, a call, and a power of parentheses, which stays *)
Definition case : list piece :=
  Power (txt "a") (txt "2") :: map Char (txt "*b + ") ++ Power (txt "ax") (txt "12") :: Char "/"%char :: Power (txt "x") (txt "2") :: map Char (txt " + ") ++
  Call (txt "x") (txt "  ") (txt "3") :: map Char (txt "*(a+b)**2").
Ltac expr := repeat match goal with
  | |- _ /\ _ => split
  | |- ~ (_ /\ _) => let H := fresh in intros [H ?]; try discriminate H; discriminate
  | |- word _ => split; [discriminate|reflexivity]
  | |- digits _ => split; [discriminate|reflexivity]
  | |- without _ _ => intros [|? [|? ?]] ?; discriminate
  | |- forall c : ascii, _ => let H := fresh in intros ? H; cbn in H; first [discriminate H|injection H as <-; split; [reflexivity|discriminate]]
  | |- 0 < number _ => cbn; lia
  | |- expression _ _ => progress cbn [expression map app txt list_ascii_of_string]
  | |- True => exact I
  | |- _ = _ => reflexivity
  end.
Example C107_case : expression None case /\ shown case = txt "a**2*b + ax**12/x**2 + pow(x,  3)*(a+b)**2" /\
  multiplied case = txt "(a*a)*b + (ax*ax*ax*ax*ax*ax*ax*ax*ax*ax*ax*ax)/(x*x) + (x*x*x)*(a+b)**2".
Proof. split; [unfold case; expr|]. split; reflexivity. Qed.
Example C107_array_case : let l := Power (txt "a") (txt "2") :: map Char (txt "*b + ") ++ [Power (txt "b") (txt "3")] in expression None l /\
  (forall w d w1 d1, In (Power w d) l -> In (Power w1 d1) l -> (w, d) = (w1, d1) \/ without (shown1 (Power w1 d1)) (shown1 (Power w d))).
Proof.
  cbv zeta. split; [expr|]. intros w d w1 d1 H1 H2. cbn in H1, H2.
  repeat match goal with H : _ \/ _ |- _ => destruct H as [H|H]; try discriminate H end; try contradiction; injection H1 as <- <-; injection H2 as <- <-; [left; reflexivity| | |left; reflexivity]; right; intros [|? [|? [|? [|? [|? ?]]]]] ? HE; discriminate HE.
Qed.

(* mprint_as_array replaces x**2 inside of x**23 and of ax**2 as well *)
Theorem C107_array_powers_refuted :
  array_powers (txt "x**2 + x**23") = txt "(x*x) + (x*x)3" /\ array_powers (txt "x**2 + ax**2") = txt "(x*x) + a(x*x)" /\
  exists l, expression None l /\ array_powers (shown l) <> powers_multiplied l.
Proof.
  split; [reflexivity|]. split; [reflexivity|]. exists (Power (txt "x") (txt "2") :: map Char (txt " + ") ++ [Power (txt "ax") (txt "2")]). split; [expr|]. discriminate.
Qed.
Print Assumptions C107_array_powers_refuted.
(* what pow2mult does to other powers: an empty product, the square of the decimals of a number, the exponent of a power (x**8 becomes
   x**6, or x**8, depending on other powers), the name of another function, and an error for an exponent that is a name *)
Theorem C107_other_powers_refuted :
  pow2mult (txt "x**0") = Ok (txt "()") /\ pow2mult (txt "2.5**2") = Ok (txt "2.(5*5)") /\
  pow2mult (txt "x**2**3") = Ok (txt "(x*x)**3") /\ pow2mult (txt "x**2**3 + 2**3") = Ok (txt "x**(2*2*2) + (2*2*2)") /\
  pow2mult (txt "mypow(x, 2)") = Ok (txt "my(x*x)") /\ pow2mult (txt "pow(x, n)") = Err ValueError.
Proof. repeat split. Qed.
Print Assumptions C107_other_powers_refuted.
