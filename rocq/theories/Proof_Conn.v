(* The connection kernels: bilinear form = work of the mismatch springs. *)
From Coq Require Import Reals List Arith Bool Lia Lra.
From Coquelicot Require Import Coquelicot.
From Verif Require Import Base_Sum Model_Types Model_Coo Model_Conn Spec_Algebra Spec_Kinematics Spec_Quadrature Spec_Panel Spec_Integral Spec_Fext Spec_Conn
  Proof_Coo Proof_Ana Proof_AnaKer Proof_Terms Proof_Mismatch Proof_Pd.
Import ListNotations.
Open Scope R_scope.

Section Sides.
Variables (T : tables) (Bs : basis) (s1 s2 : shell).
Hypothesis HT : tables_integrate T Bs (Nat.max (Nat.max (sh_m s1) (sh_n s1)) (Nat.max (sh_m s2) (sh_n s2))).
Notation m1 := (sh_m s1). Notation n1 := (sh_n s1). Notation m2 := (sh_m s2). Notation n2 := (sh_n s2).

Definition tX (sA sB : shell) (t t' : tm) (i k : nat) : R := tab T (tdx t) (tdx t') i k (xedge sA (tp t)) (xedge sB (tp t')).
Definition tY (sA sB : shell) (t t' : tm) (j l : nat) : R := tab T (tdy t) (tdy t') j l (yedge sA (tp t)) (yedge sB (tp t')).
Definition gX (s : shell) (x : R) (t : tm) (i : nat) : R := shape Bs (tdx t) i x (xedge s (tp t)).
Definition gY (s : shell) (y : R) (t : tm) (j : nat) : R := shape Bs (tdy t) j y (yedge s (tp t)).

Lemma shape_bf q i x e : (q < 2)%nat -> shape Bs q i x e = match q with 0%nat => bf Bs i x e | _ => bfp Bs i x e end.
Proof using . intro H. destruct q as [|[|q]]; try lia; reflexivity. Qed.

Definition Wx (sA sB : shell) (y y' : R) (t t' : tm) (i k j l : nat) : R := tX sA sB t t' i k * (gY sA y t j * gY sB y' t' l).
Definition Wy (sA sB : shell) (x x' : R) (t t' : tm) (i k j l : nat) : R := tY sA sB t t' j l * (gX sA x t i * gX sB x' t' k).
Definition Wa (sA sB : shell) (t t' : tm) (i k j l : nat) : R := tX sA sB t t' i k * tY sA sB t t' j l.

Let NN := Nat.max (Nat.max m1 n1) (Nat.max m2 n2).
Lemma tab_int : one_d_integrates (tab T) Bs NN.
Proof using HT. apply tab_integrates. exact HT. Qed.
Lemma tab_symm : one_d_sym (tab T) NN.
Proof using HT. apply tab_sym. apply (tables_integrate_symmetric T Bs). exact HT. Qed.
Definition small (s : shell) : Prop := (sh_m s <= NN)%nat /\ (sh_n s <= NN)%nat.

(* products of two fields along a line y = constant, along a line x = constant, and over the area *)
Lemma prod_x sA sB oA oB y y' t t' k0 c d : small sA -> small sB -> (tp t < 3)%nat -> (tp t' < 3)%nat ->
  is_line (fun x => k0 * (ritz (sh_m sA) (sh_n sA) (own oA c) (tp t) (fun i => shape Bs (tdx t) i x (xedge sA (tp t))) (gY sA y t)
                        * ritz (sh_m sB) (sh_n sB) (own oB d) (tp t') (fun i => shape Bs (tdx t') i x (xedge sB (tp t'))) (gY sB y' t')))
    (tsum oA (sh_m sA) (sh_n sA) oB (sh_m sB) (sh_n sB) c d (term (tp t) (tp t') (fun i k j l => k0 * Wx sA sB y y' t t' i k j l))).
Proof using HT.
  intros [SA SA'] [SB SB'] H1 H2.
  rewrite (tsum_ext _ _ _ _ _ _ _ _ _ (term (tp t) (tp t') (fun i k j l => k0 * tX sA sB t t' i k * (gY sA y t j * gY sB y' t' l)))).
  2:{ intros. unfold term, Wx. destruct (_ && _)%bool; [ring|reflexivity]. }
  apply (line_term_x oA (sh_m sA) (sh_n sA) oB (sh_m sB) (sh_n sB) c d (tp t) (tp t') k0
    (fun i x => shape Bs (tdx t) i x (xedge sA (tp t))) (fun i x => shape Bs (tdx t') i x (xedge sB (tp t'))) (gY sA y t) (gY sB y' t')); try assumption.
  intros i k Hi Hk. apply tab_int; lia.
Qed.
Lemma prod_y sA sB oA oB x x' t t' k0 c d : small sA -> small sB -> (tp t < 3)%nat -> (tp t' < 3)%nat ->
  is_line (fun y => k0 * (ritz (sh_m sA) (sh_n sA) (own oA c) (tp t) (gX sA x t) (fun i => shape Bs (tdy t) i y (yedge sA (tp t)))
                        * ritz (sh_m sB) (sh_n sB) (own oB d) (tp t') (gX sB x' t') (fun i => shape Bs (tdy t') i y (yedge sB (tp t')))))
    (tsum oA (sh_m sA) (sh_n sA) oB (sh_m sB) (sh_n sB) c d (term (tp t) (tp t') (fun i k j l => k0 * Wy sA sB x x' t t' i k j l))).
Proof using HT.
  intros [SA SA'] [SB SB'] H1 H2.
  rewrite (tsum_ext _ _ _ _ _ _ _ _ _ (term (tp t) (tp t') (fun i k j l => k0 * (gX sA x t i * gX sB x' t' k) * tY sA sB t t' j l))).
  2:{ intros. unfold term, Wy. destruct (_ && _)%bool; [ring|reflexivity]. }
  apply (line_term_y oA (sh_m sA) (sh_n sA) oB (sh_m sB) (sh_n sB) c d (tp t) (tp t') k0
    (fun i x => shape Bs (tdy t) i x (yedge sA (tp t))) (fun i x => shape Bs (tdy t') i x (yedge sB (tp t'))) (gX sA x t) (gX sB x' t')); try assumption.
  intros i k Hi Hk. apply tab_int; lia.
Qed.
Definition is_area (g : R * R -> R) (I : R) : Prop := square_integral (fun x y => g (x, y)) I.
Lemma prod_a sA sB oA oB t t' k0 c d : small sA -> small sB -> (tp t < 3)%nat -> (tp t' < 3)%nat ->
  is_area (fun z => k0 * (ritz (sh_m sA) (sh_n sA) (own oA c) (tp t) (gX sA (fst z) t) (gY sA (snd z) t)
                        * ritz (sh_m sB) (sh_n sB) (own oB d) (tp t') (gX sB (fst z) t') (gY sB (snd z) t')))
    (tsum oA (sh_m sA) (sh_n sA) oB (sh_m sB) (sh_n sB) c d (term (tp t) (tp t') (fun i k j l => k0 * Wa sA sB t t' i k j l))).
Proof using HT.
  intros [SA SA'] [SB SB'] H1 H2. rewrite tsum_term by assumption. unfold is_area. cbn [fst snd].
  eapply sqi_ext with (g := fun x y => sumn (sh_n sA) (fun j => sumn (sh_m sA) (fun i => sumn (sh_n sB) (fun l => sumn (sh_m sB) (fun k =>
    (own oA c (3 * (j * sh_m sA + i) + tp t)%nat * k0 * own oB d (3 * (l * sh_m sB + k) + tp t')%nat) *
    ((gX sA x t i * gX sB x t' k) * (gY sA y t j * gY sB y t' l))))))).
  - intros x y. unfold ritz.
    rewrite <- sumn_scal_r, <- sumn_scal. apply sumn_ext; intros j _.
    rewrite <- sumn_scal_r, <- sumn_scal. apply sumn_ext; intros i _.
    rewrite <- sumn_scal, <- sumn_scal. apply sumn_ext; intros l _.
    rewrite <- sumn_scal, <- sumn_scal. apply sumn_ext; intros k _. ring.
  - apply (sqi_sumn _ (fun j x y => _)); intros j Hj. apply (sqi_sumn _ (fun i x y => _)); intros i Hi.
    apply (sqi_sumn _ (fun l x y => _)); intros l Hl. apply (sqi_sumn _ (fun k x y => _)); intros k Hk.
    replace (own oA c (3 * (j * sh_m sA + i) + tp t)%nat * (k0 * Wa sA sB t t' i k j l) * own oB d (3 * (l * sh_m sB + k) + tp t')%nat)
      with ((own oA c (3 * (j * sh_m sA + i) + tp t)%nat * k0 * own oB d (3 * (l * sh_m sB + k) + tp t')%nat) * Wa sA sB t t' i k j l) by ring.
    apply sqi_scal. unfold Wa.
    apply (sqi_prod (fun x => gX sA x t i * gX sB x t' k) (fun y => gY sA y t j * gY sB y t' l)); apply tab_int; lia.
Qed.

Lemma pairs_sym la W k0 i k j l p q : (forall t t', W t t' i k j l = W t' t k i l j) ->
  pairs la la W k0 i k j l p q = pairs la la W k0 k i l j q p.
Proof using .
  intro H. unfold pairs. rewrite suml_swap. apply suml_ext; intros t _. apply suml_ext; intros t' _. unfold term.
  rewrite (andb_comm (p =? tp t')%nat). destruct (_ && _)%bool; [|reflexivity]. rewrite H. ring.
Qed.
Lemma s1_small : small s1. Proof using . unfold small, NN. lia. Qed.
Lemma s2_small : small s2. Proof using . unfold small, NN. lia. Qed.

Definition sumpairs (ms : list mis) (A B : mis -> list tm) W : val4 :=
  fun i k j l p q => suml ms (fun m => pairs (A m) (B m) W (mk m) i k j l p q).

(* the three families *)
Theorem family_x ms y1 y2 oA oB ker11 ker12 ker22 N c d :
  (oA + 3 * (m1 * n1) <= oB)%nat -> (oB + 3 * (m2 * n2) <= N)%nat -> List.Forall mis_ok ms ->
  (forall i k j l, wf_block (ker11 i k j l)) -> (forall i k j l, wf_block (ker12 i k j l)) -> (forall i k j l, wf_block (ker22 i k j l)) ->
  (forall i k j l p q, (p < DOF)%nat -> (q < DOF)%nat -> loc (ker11 i k j l) p q = sumpairs ms mA mA (Wx s1 s1 y1 y1) i k j l p q) ->
  (forall i k j l p q, (p < DOF)%nat -> (q < DOF)%nat -> loc (ker12 i k j l) p q = sumpairs ms mA mB (Wx s1 s2 y1 y2) i k j l p q) ->
  (forall i k j l p q, (p < DOF)%nat -> (q < DOF)%nat -> loc (ker22 i k j l) p q = sumpairs ms mB mB (Wx s2 s2 y2 y2) i k j l p q) ->
  let K := finalize_symmetric (dense (loop_ikjl true oA oA m1 n1 m1 n1 ker11 ++ loop_ikjl false oA oB m1 n1 m2 n2 ker12 ++ loop_ikjl true oB oB m2 n2 m2 n2 ker22)) in
  let M m c x := mismatch R oA m1 n1 oB m2 n2 (fun t x => gX s1 x t) (fun t x => gY s1 y1 t) (fun t x => gX s2 x t) (fun t x => gY s2 y2 t) m c x in
  is_line (fun x => suml ms (fun m => mk m * (M m c x * M m d x))) (bilinear N K c d).
Proof using HT.
  intros HA HB Hok w11 w12 w22 L11 L12 L22. cbv zeta.
  apply (mismatch_energy R is_line) with (WAA := Wx s1 s1 y1 y1) (WAB := Wx s1 s2 y1 y2) (WBB := Wx s2 s2 y2 y2); try assumption.
  - intros g h I. apply line_ext.
  - apply line_plus.
  - apply line_0.
  - intros. apply prod_x; try assumption; apply s1_small.
  - intros. apply prod_x; try assumption; [apply s1_small|apply s2_small].
  - intros. apply prod_x; try assumption; apply s2_small.
  - intros c' d'. apply three_blocks; try (unfold DOF; lia).
    + apply diag_form_ikjl; assumption.
    + intros. apply rect_ikjl; assumption.
    + apply diag_form_ikjl; assumption.
    + intros i k j l p q Hi Hk _ _ _ _. apply suml_ext; intros m _. apply pairs_sym. intros t t'. unfold Wx, tX. rewrite tab_symm by (unfold NN; lia). ring.
    + intros i k j l p q Hi Hk _ _ _ _. apply suml_ext; intros m _. apply pairs_sym. intros t t'. unfold Wx, tX. rewrite tab_symm by (unfold NN; lia). ring.
Qed.
Theorem family_y ms x1 x2 oA oB ker11 ker12 ker22 N c d :
  (oA + 3 * (m1 * n1) <= oB)%nat -> (oB + 3 * (m2 * n2) <= N)%nat -> List.Forall mis_ok ms ->
  (forall i k j l, wf_block (ker11 i k j l)) -> (forall i k j l, wf_block (ker12 i k j l)) -> (forall i k j l, wf_block (ker22 i k j l)) ->
  (forall i k j l p q, (p < DOF)%nat -> (q < DOF)%nat -> loc (ker11 i k j l) p q = sumpairs ms mA mA (Wy s1 s1 x1 x1) i k j l p q) ->
  (forall i k j l p q, (p < DOF)%nat -> (q < DOF)%nat -> loc (ker12 i k j l) p q = sumpairs ms mA mB (Wy s1 s2 x1 x2) i k j l p q) ->
  (forall i k j l p q, (p < DOF)%nat -> (q < DOF)%nat -> loc (ker22 i k j l) p q = sumpairs ms mB mB (Wy s2 s2 x2 x2) i k j l p q) ->
  let K := finalize_symmetric (dense (loop_jlik true oA oA m1 n1 m1 n1 ker11 ++ loop_jlik false oA oB m1 n1 m2 n2 ker12 ++ loop_jlik true oB oB m2 n2 m2 n2 ker22)) in
  let M m c y := mismatch R oA m1 n1 oB m2 n2 (fun t y => gX s1 x1 t) (fun t y => gY s1 y t) (fun t y => gX s2 x2 t) (fun t y => gY s2 y t) m c y in
  is_line (fun y => suml ms (fun m => mk m * (M m c y * M m d y))) (bilinear N K c d).
Proof using HT.
  intros HA HB Hok w11 w12 w22 L11 L12 L22. cbv zeta.
  apply (mismatch_energy R is_line) with (WAA := Wy s1 s1 x1 x1) (WAB := Wy s1 s2 x1 x2) (WBB := Wy s2 s2 x2 x2); try assumption.
  - intros g h I. apply line_ext.
  - apply line_plus.
  - apply line_0.
  - intros. apply prod_y; try assumption; apply s1_small.
  - intros. apply prod_y; try assumption; [apply s1_small|apply s2_small].
  - intros. apply prod_y; try assumption; apply s2_small.
  - intros c' d'. apply three_blocks; try (unfold DOF; lia).
    + apply diag_form_jlik; assumption.
    + intros. apply rect_jlik; assumption.
    + apply diag_form_jlik; assumption.
    + intros i k j l p q _ _ Hj Hl _ _. apply suml_ext; intros m _. apply pairs_sym. intros t t'. unfold Wy, tY. rewrite tab_symm by (unfold NN; lia). ring.
    + intros i k j l p q _ _ Hj Hl _ _. apply suml_ext; intros m _. apply pairs_sym. intros t t'. unfold Wy, tY. rewrite tab_symm by (unfold NN; lia). ring.
Qed.
Theorem family_a ms oA oB ker11 ker12 ker22 N c d :
  (oA + 3 * (m1 * n1) <= oB)%nat -> (oB + 3 * (m2 * n2) <= N)%nat -> List.Forall mis_ok ms ->
  (forall i k j l, wf_block (ker11 i k j l)) -> (forall i k j l, wf_block (ker12 i k j l)) -> (forall i k j l, wf_block (ker22 i k j l)) ->
  (forall i k j l p q, (p < DOF)%nat -> (q < DOF)%nat -> loc (ker11 i k j l) p q = sumpairs ms mA mA (Wa s1 s1) i k j l p q) ->
  (forall i k j l p q, (p < DOF)%nat -> (q < DOF)%nat -> loc (ker12 i k j l) p q = sumpairs ms mA mB (Wa s1 s2) i k j l p q) ->
  (forall i k j l p q, (p < DOF)%nat -> (q < DOF)%nat -> loc (ker22 i k j l) p q = sumpairs ms mB mB (Wa s2 s2) i k j l p q) ->
  let K := finalize_symmetric (dense (loop_ikjl true oA oA m1 n1 m1 n1 ker11 ++ loop_ikjl false oA oB m1 n1 m2 n2 ker12 ++ loop_ikjl true oB oB m2 n2 m2 n2 ker22)) in
  let M m c z := mismatch (R * R) oA m1 n1 oB m2 n2 (fun t z => gX s1 (fst z) t) (fun t z => gY s1 (snd z) t) (fun t z => gX s2 (fst z) t) (fun t z => gY s2 (snd z) t) m c z in
  is_area (fun z => suml ms (fun m => mk m * (M m c z * M m d z))) (bilinear N K c d).
Proof using HT.
  intros HA HB Hok w11 w12 w22 L11 L12 L22. cbv zeta.
  apply (mismatch_energy (R * R) is_area) with (WAA := Wa s1 s1) (WAB := Wa s1 s2) (WBB := Wa s2 s2); try assumption.
  - intros g h I Hg. apply sqi_ext. intros; apply Hg.
  - intros g h I J. apply sqi_plus.
  - apply sqi_0.
  - intros. apply prod_a; try assumption; apply s1_small.
  - intros. apply prod_a; try assumption; [apply s1_small|apply s2_small].
  - intros. apply prod_a; try assumption; apply s2_small.
  - intros c' d'. apply three_blocks; try (unfold DOF; lia).
    + apply diag_form_ikjl; assumption.
    + intros. apply rect_ikjl; assumption.
    + apply diag_form_ikjl; assumption.
    + intros i k j l p q Hi Hk Hj Hl _ _. apply suml_ext; intros m _. apply pairs_sym. intros t t'. unfold Wa, tX, tY.
      rewrite (tab_symm (tdx t)), (tab_symm (tdy t)) by (unfold NN; lia). ring.
    + intros i k j l p q Hi Hk Hj Hl _ _. apply suml_ext; intros m _. apply pairs_sym. intros t t'. unfold Wa, tX, tY.
      rewrite (tab_symm (tdx t)), (tab_symm (tdy t)) by (unfold NN; lia). ring.
Qed.
End Sides.

(* --- the five connections --- *)
Definition U1 (k : nat) : tm := mkTm 1 k 0 0.
Definition Um (k : nat) : tm := mkTm (-1) k 0 0.
Definition ms_SSy (s1 s2 : shell) (kt kr : R) : list mis :=
  [ mkMis (sh_a s1 / 2 * kt) [U1 0] [Um 0]; mkMis (sh_a s1 / 2 * kt) [U1 1] [Um 1]; mkMis (sh_a s1 / 2 * kt) [U1 2] [Um 2];
    mkMis (sh_a s1 / 2 * kr) [mkTm (- (2 / sh_b s1)) 2 0 1] [mkTm (2 / sh_b s2) 2 0 1] ].
Definition ms_BFy (s1 s2 : shell) (kt kr : R) : list mis :=
  [ mkMis (sh_a s1 / 2 * kt) [U1 0] [Um 0]; mkMis (sh_a s1 / 2 * kt) [U1 1] [Um 2]; mkMis (sh_a s1 / 2 * kt) [U1 2] [U1 1];
    mkMis (sh_a s1 / 2 * kr) [mkTm (- (2 / sh_b s1)) 2 0 1] [mkTm (2 / sh_b s2) 2 0 1] ].
Definition ms_SSx (s1 s2 : shell) (kt kr : R) : list mis :=
  [ mkMis (sh_b s1 / 2 * kt) [U1 0] [Um 0]; mkMis (sh_b s1 / 2 * kt) [U1 1] [Um 1]; mkMis (sh_b s1 / 2 * kt) [U1 2] [Um 2];
    mkMis (sh_b s1 / 2 * kr) [mkTm (- (2 / sh_a s1)) 2 1 0] [mkTm (2 / sh_a s2) 2 1 0] ].
Definition ms_BFx (s1 s2 : shell) (kt kr : R) : list mis :=
  [ mkMis (sh_b s1 / 2 * kt) [U1 0] [Um 2]; mkMis (sh_b s1 / 2 * kt) [U1 1] [Um 1]; mkMis (sh_b s1 / 2 * kt) [U1 2] [U1 0];
    mkMis (sh_b s1 / 2 * kr) [mkTm (- (2 / sh_a s1)) 2 1 0] [mkTm (2 / sh_a s2) 2 1 0] ].
Definition ms_SB (s1 s2 : shell) (kt dsb : R) : list mis :=
  [ mkMis (sh_a s1 * sh_b s1 / 4 * kt) [U1 0; mkTm (dsb * (2 / sh_a s1)) 2 1 0] [Um 0];
    mkMis (sh_a s1 * sh_b s1 / 4 * kt) [U1 1; mkTm (dsb * (2 / sh_b s1)) 2 0 1] [Um 1];
    mkMis (sh_a s1 * sh_b s1 / 4 * kt) [U1 2] [Um 2] ].
Ltac ms_ok := repeat constructor; cbn; lia.

Ltac loc_tac := let Hp := fresh in let Hq := fresh in
  intros ? ? ? ? p q Hp Hq; unfold DOF in *;
  destruct p as [|[|[|p]]]; try lia; destruct q as [|[|[|q]]]; try lia;
  cbv [loc suml sumpairs pairs term mA mB mk tk tp tdx tdy U1 Um ms_SSy ms_BFy ms_SSx ms_BFx ms_SB Wx Wy Wa tX tY gX gY tab shape xedge yedge
       fkCSSycte11_ker fkCSSycte12_ker fkCSSycte22_ker fkCBFycte11_ker fkCBFycte12_ker fkCBFycte22_ker
       fkCSSxcte11_ker fkCSSxcte12_ker fkCSSxcte22_ker fkCBFxcte11_ker fkCBFxcte12_ker fkCBFxcte22_ker
       fkCSB11_ker fkCSB12_ker fkCSB22_ker natural Nat.eqb andb];
  field; auto.

(* from the natural coordinate to the length along the side of the first panel *)
Lemma along_side len (g : R -> R) (h : R -> R) B : len <> 0 -> is_line g B -> (forall t, len / 2 * h t = g (natural t len)) -> is_RInt h 0 len B.
Proof.
  intros Hl HB H. apply (is_RInt_ext (fun t => (fun z => 2 / len * g z) (natural t len))).
  { intros t _. cbv beta. rewrite <- H. match goal with |- ?a = ?b => change (@eq R a b) end. field. exact Hl. }
  replace B with (len / 2 * (2 / len * B)) by (field; exact Hl).
  apply (side_of_line len (fun z => 2 / len * g z)); [exact Hl|]. apply line_scal. exact HB.
Qed.
Lemma natural_ratio t a a' : a <> 0 -> a' <> 0 -> natural (t * (a' / a)) a' = natural t a.
Proof. intros. unfold natural. field. auto. Qed.

Section Connections.
Variables (T : tables) (Bs : basis) (s1 s2 : shell) (oA oB N : nat) (c d : nat -> R).
Hypothesis HT : tables_integrate T Bs (Nat.max (Nat.max (sh_m s1) (sh_n s1)) (Nat.max (sh_m s2) (sh_n s2))).
Hypothesis HoA : (oA + 3 * (sh_m s1 * sh_n s1) <= oB)%nat.
Hypothesis HoB : (oB + 3 * (sh_m s2 * sh_n s2) <= N)%nat.
Hypothesis Ha1 : sh_a s1 <> 0. Hypothesis Hb1 : sh_b s1 <> 0. Hypothesis Ha2 : sh_a s2 <> 0. Hypothesis Hb2 : sh_b s2 <> 0.
Notation U := (ritz_field Bs s1 (own oA c)). Notation V := (ritz_field Bs s2 (own oB c)).
Notation U' := (ritz_field Bs s1 (own oA d)). Notation V' := (ritz_field Bs s2 (own oB d)).

Ltac jump_tac :=
  cbv [jump_work suml fst snd jumps_SSycte jumps_BFycte jumps_SSxcte jumps_BFxcte jumps_SB ms_SSy ms_BFy ms_SSx ms_BFx ms_SB mk mA mB U1 Um mismatch fA fB tk tp tdx tdy
    ritz_field gX gY shape d_u d_v d_w d_wx d_wy fld].
Ltac blocks := [> exact HoA | exact HoB | ms_ok | wf3 | wf3 | wf3 | loc_tac | loc_tac | loc_tac ].

Theorem SSycte_work kt kr y1 y2 : kt <> 0 ->
  work_along_x (jumps_SSycte kt kr) s1 s2 y1 y2 U V U' V' (bilinear N (finalize_symmetric (dense
    (fkCSSycte11 T Bs kt kr s1 y1 oA oA ++ fkCSSycte12 T Bs kt kr s1 s2 y1 y2 oA oB ++ fkCSSycte22 T Bs kt kr s1 s2 y2 oB oB))) c d).
Proof using HT HoA HoB Ha1 Hb1 Ha2 Hb2.
  intro Hk. unfold work_along_x. eapply along_side; [exact Ha1| |].
  - unshelve eapply (family_x T Bs s1 s2 HT (ms_SSy s1 s2 kt kr) (natural y1 (sh_b s1)) (natural y2 (sh_b s2)) oA oB); blocks.
  - intro t. cbv beta. jump_tac. rewrite natural_ratio by assumption. field. auto.
Qed.
Theorem BFycte_work kt kr y1 y2 : kt <> 0 ->
  work_along_x (jumps_BFycte kt kr) s1 s2 y1 y2 U V U' V' (bilinear N (finalize_symmetric (dense
    (fkCBFycte11 T Bs kt kr s1 y1 oA oA ++ fkCBFycte12 T Bs kt kr s1 s2 y1 y2 oA oB ++ fkCBFycte22 T Bs kt kr s1 s2 y2 oB oB))) c d).
Proof using HT HoA HoB Ha1 Hb1 Ha2 Hb2.
  intro Hk. unfold work_along_x. eapply along_side; [exact Ha1| |].
  - unshelve eapply (family_x T Bs s1 s2 HT (ms_BFy s1 s2 kt kr) (natural y1 (sh_b s1)) (natural y2 (sh_b s2)) oA oB); blocks.
  - intro t. cbv beta. jump_tac. rewrite natural_ratio by assumption. field. auto.
Qed.
Theorem SSxcte_work kt kr x1 x2 : kt <> 0 ->
  work_along_y (jumps_SSxcte kt kr) s1 s2 x1 x2 U V U' V' (bilinear N (finalize_symmetric (dense
    (fkCSSxcte11 T Bs kt kr s1 x1 oA oA ++ fkCSSxcte12 T Bs kt kr s1 s2 x1 x2 oA oB ++ fkCSSxcte22 T Bs kt kr s1 s2 x2 oB oB))) c d).
Proof using HT HoA HoB Ha1 Hb1 Ha2 Hb2.
  intro Hk. unfold work_along_y. eapply along_side; [exact Hb1| |].
  - unshelve eapply (family_y T Bs s1 s2 HT (ms_SSx s1 s2 kt kr) (natural x1 (sh_a s1)) (natural x2 (sh_a s2)) oA oB); blocks.
  - intro t. cbv beta. jump_tac. rewrite natural_ratio by assumption. field. auto.
Qed.
Theorem BFxcte_work kt kr x1 x2 : kt <> 0 ->
  work_along_y (jumps_BFxcte kt kr) s1 s2 x1 x2 U V U' V' (bilinear N (finalize_symmetric (dense
    (fkCBFxcte11 T Bs kt kr s1 x1 oA oA ++ fkCBFxcte12 T Bs kt kr s1 s2 x1 x2 oA oB ++ fkCBFxcte22 T Bs kt kr s1 s2 x2 oB oB))) c d).
Proof using HT HoA HoB Ha1 Hb1 Ha2 Hb2.
  intro Hk. unfold work_along_y. eapply along_side; [exact Hb1| |].
  - unshelve eapply (family_y T Bs s1 s2 HT (ms_BFx s1 s2 kt kr) (natural x1 (sh_a s1)) (natural x2 (sh_a s2)) oA oB); blocks.
  - intro t. cbv beta. jump_tac. rewrite natural_ratio by assumption. field. auto.
Qed.
Lemma natural_back z a : a <> 0 -> natural ((z + 1) * a / 2) a = z.
Proof using . intro. unfold natural. field. auto. Qed.
Theorem SB_work kt dsb :
  work_over_area (jumps_SB kt dsb) s1 s2 U V U' V' (bilinear N (finalize_symmetric (dense
    (fkCSB11 T kt dsb s1 oA oA ++ fkCSB12 T kt dsb s1 s2 oA oB ++ fkCSB22 T kt s1 s2 oB oB))) c d).
Proof using HT HoA HoB Ha1 Hb1 Ha2 Hb2.
  unfold work_over_area, panel_integral.
  eapply sqi_ext.
  2:{ unshelve eapply (family_a T Bs s1 s2 HT (ms_SB s1 s2 kt dsb) oA oB); blocks. }
  intros x y. cbv beta. jump_tac. rewrite !natural_back by assumption. field. auto.
Qed.
End Connections.
