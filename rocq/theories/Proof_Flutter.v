(* The aerodynamic matrix with ends that are free to deflect, and the matrix of the flutter analysis. *)
From Coq Require Import Reals List Arith Bool Lia Lra.
From Coquelicot Require Import Coquelicot.
From Verif Require Import Base_Sum Model_Types Model_Coo Model_Result Model_PlateNumKer Model_CylNumKer
  Model_Num Model_DB Model_Shell Model_Fext Model_Multi Model_New Model_Cylinder Model_TStiff Model_Flutter Spec_Algebra Spec_Kinematics Spec_Quadrature Spec_Panel Spec_Shell Spec_Bardell
  Spec_Integral Spec_Aero Spec_Flow Spec_Fext Spec_Conn Spec_Multi Spec_MultiConn Spec_Cylinder Spec_TStiff Spec_Flutter
  Proof_Coo Proof_Num Proof_Energy Proof_Total Proof_Shell Proof_Api Proof_AnaKer Proof_Ana Proof_Ana2 Proof_Ana3
  Proof_Poly Proof_Bardell Proof_FieldEdge Proof_Aero Proof_Multi Proof_TStiffWork Ex_Fint Ex_Fext.
From Coq Require Import List.
Import ListNotations.
Open Scope R_scope.

(* ------------------------------------------------- ends free to deflect *)
Lemma V_flip tx ty s J be ga fx m n i k j l d e : one_d_sym tx m -> one_d_sym ty n -> (i < m)%nat -> (k < m)%nat -> (j < n)%nat -> (l < n)%nat -> (d < DOF)%nat -> (e < DOF)%nat ->
  V_gen tx ty s J 2 (Mneg be ga) (opA fx s) i k j l d e = - V_gen tx ty s J 2 (Mpos be (- ga)) (opA fx s) k i l j e d.
Proof.
  intros Sx Sy Hi Hk Hj Hl Hd He. unfold V_gen.
  destruct (lt3 d Hd) as [->|[->| ->]]; destruct (lt3 e He) as [->|[->| ->]]; cbn [sumn opA Mneg Mpos]; try (destruct fx; ring).
  destruct fx; cbn [xedge yedge].
  - rewrite (Sx 1%nat 0%nat i k), (Sy 0%nat 0%nat j l), (Sx 0%nat 0%nat i k) by assumption. ring.
  - rewrite (Sx 0%nat 0%nat i k), (Sy 1%nat 0%nat j l), (Sy 0%nat 0%nat j l) by assumption. ring.
Qed.
Lemma full_flip o m n V V' r t : (forall i k j l d e, (i < m)%nat -> (k < m)%nat -> (j < n)%nat -> (l < n)%nat -> (d < DOF)%nat -> (e < DOF)%nat -> V i k j l d e = - V' k i l j e d) ->
  fullmat o m n V r t = - fullmat o m n V' t r.
Proof.
  intro H. unfold fullmat. rewrite (andb_comm (inblk o m n t)). destruct (inblk o m n r && inblk o m n t)%bool eqn:E; [|lra].
  apply andb_true_iff in E as [Er Et]. destruct (inblk_bounds _ _ _ _ Er) as (A & B & C & _). destruct (inblk_bounds _ _ _ _ Et) as (A' & B' & C' & _).
  apply H; assumption.
Qed.

Section Any.
Variables (E : env) (p : panel) (fx : bool).
Hypothesis HF : flown E p fx.
Notation s := (pn_sh p).
Notation J := (sh_a s * sh_b s / 4).
Notation tx := (rule_1d (e_rule E) (pn_nx p) exact_basis).
Notation ty := (rule_1d (e_rule E) (pn_ny p) exact_basis).
Notation Vneg be ga := (V_gen tx ty s J 2 (Mneg be ga) (opA fx s)).
Notation Vpos be ga := (V_gen tx ty s J 2 (Mpos be ga) (opA fx s)).

Lemma any_upper sz o fin p' K be ga : calc_kA E sz o o fin p = (p', Ok K) -> pn_beta p' = Some be -> pn_gamma p' = Some ga -> fx = true \/ ga = 0 ->
  forall r t, (r <= t)%nat -> K r t = fullmat o (sh_m s) (sh_n s) (Vneg be ga) r t.
Proof using HF.
  intros H Hb Hg Hy r t Hrt. destruct HF as (A & B & C & D & M1 & M2 & W & Q).
  destruct (kA_form E p fx A B C D M1 M2 W Q sz o p' K fin H) as (be' & ga' & kA & E1 & E2 & HK & HB).
  rewrite Hb in E1. injection E1 as <-. rewrite Hg in E2. injection E2 as <-.
  replace ga with (if fx then ga else 0) by (destruct Hy as [-> | ->]; [reflexivity|destruct fx; reflexivity]).
  rewrite <- (block_upper _ _ _ _ _ HB r t Hrt). rewrite HK. destruct fin; [|reflexivity]. unfold make_skew. apply Nat.leb_le in Hrt. rewrite Hrt. reflexivity.
Qed.
Lemma true_work be ga o N c d : (o + ndof s <= N)%nat ->
  panel_integral s (pressure_work exact_basis s fx be ga (own o c) (own o d)) (bilinear N (fullmat o (sh_m s) (sh_n s) (Vpos be ga)) c d).
Proof using HF.
  intro HN. destruct HF as (A & B & C & D & M1 & M2 & W & Q). exact (full_work E p fx A B C D M1 M2 W Q be ga o N c d HN).
Qed.
Theorem kA_any_ends sz o fin p' K be ga : calc_kA E sz o o fin p = (p', Ok K) -> pn_beta p' = Some be -> pn_gamma p' = Some ga -> fx = true \/ ga = 0 ->
  forall r t, (r <= t)%nat -> panel_integral s (pressure_work exact_basis s fx be (- ga) (own o (unitv t)) (own o (unitv r))) (- K r t).
Proof using HF.
  intros H Hb Hg Hy r t Hrt. rewrite (any_upper sz o fin p' K be ga H Hb Hg Hy r t Hrt).
  rewrite (full_flip o (sh_m s) (sh_n s) _ (Vpos be (- ga)) r t).
  - rewrite Ropp_involutive, <- (bilinear_unit (o + ndof s + r + t + 1)) by lia. apply true_work. lia.
  - intros i k j l d e Hi Hk Hj Hl Hd He. apply (V_flip tx ty s J be ga fx (sh_m s) (sh_n s)); try assumption; apply rule_1d_sym.
Qed.

(* ------------------------------------------------- the first function: 1 at one end, 0 at the other *)
Lemma first_slope e x : e1t e = 1 -> shape exact_basis 0 0 x e = F0 x.
Proof using . intro H. cbn [shape exact_basis bf]. unfold flag. rewrite H. unfold F0, bardell. field. Qed.
Lemma first_half e : e1t e = 1 -> is_RInt (fun x => shape exact_basis 0 0 x e * shape exact_basis 1 0 x e) (-1) 1 (- (1 / 2)).
Proof using .
  intro H. evar_last.
  - eapply is_RInt_ext; [|apply (is_RInt_derive (fun x => F0 x * F0 x / 2) (fun x => F0 x * F0' x))].
    + intros x _. cbv beta. rewrite (first_slope e x H). f_equal. cbn [shape exact_basis bfp]. unfold flag. rewrite H.
      assert (HD : is_derive (bardell 0) x (F0' x)). { apply (is_derive_ext F0); [intro t; match goal with |- ?a = ?b => change (@eq R a b) end; unfold F0, bardell; field|]. unfold F0, F0'. auto_derive; [exact I|]. field. }
      rewrite (is_derive_unique _ _ _ HD). ring.
    + intros x _. unfold F0, F0'. auto_derive; [exact I|]. field.
    + intros x _. apply (ex_derive_continuous (V := R_NormedModule) (fun x => F0 x * F0' x)). unfold F0, F0'. auto_derive. exact I.
  - unfold minus, plus, opp; cbn. unfold F0. field.
Qed.
Hypotheses (Ex : e1t (sh_xw s) = 1) (Ey : e1t (sh_yw s) = 1) (Hm : (0 < sh_m s)%nat) (Hn : (0 < sh_n s)%nat) (Pa : 0 < sh_a s) (Pb : 0 < sh_b s).
Lemma first_values : tx 0%nat 1%nat 0%nat 0%nat (sh_xw s) (sh_xw s) = - (1 / 2) /\ ty 0%nat 1%nat 0%nat 0%nat (sh_yw s) (sh_yw s) = - (1 / 2) /\
  tx 0%nat 0%nat 0%nat 0%nat (sh_xw s) (sh_xw s) = 26 / 35 /\ ty 0%nat 0%nat 0%nat 0%nat (sh_yw s) (sh_yw s) = 26 / 35.
Proof using HF Ex Ey Hm Hn.
  destruct HF as (_ & _ & _ & _ & _ & _ & _ & _ & _ & Qx & Qy).
  assert (S : forall e, e1t e = 1 -> is_RInt (fun x => shape exact_basis 0 0 x e * shape exact_basis 0 0 x e) (-1) 1 (26 / 35)).
  { intros e He. eapply is_RInt_ext; [|exact F0_square]. intros x _. cbv beta. rewrite !(first_slope e x He). reflexivity. }
  assert (U : forall f u v, is_RInt f (-1) 1 u -> is_RInt f (-1) 1 v -> u = v) by (intros f u v Hu Hv; rewrite <- (@is_RInt_unique R_CompleteNormedModule _ _ _ _ Hu); exact (@is_RInt_unique R_CompleteNormedModule _ _ _ _ Hv)).
  split; [|split; [|split]].
  - exact (U _ _ _ (Qx 0%nat 1%nat 0%nat 0%nat (sh_xw s) (sh_xw s) Hm Hm) (first_half _ Ex)).
  - exact (U _ _ _ (Qy 0%nat 1%nat 0%nat 0%nat (sh_yw s) (sh_yw s) Hn Hn) (first_half _ Ey)).
  - exact (U _ _ _ (Qx 0%nat 0%nat 0%nat 0%nat (sh_xw s) (sh_xw s) Hm Hm) (S _ Ex)).
  - exact (U _ _ _ (Qy 0%nat 0%nat 0%nat 0%nat (sh_yw s) (sh_yw s) Hn Hn) (S _ Ey)).
Qed.
Lemma first_differs be ga o : be <> 0 ->
  fullmat o (sh_m s) (sh_n s) (Vneg be ga) (o + 2) (o + 2) <> fullmat o (sh_m s) (sh_n s) (Vpos be ga) (o + 2) (o + 2).
Proof using HF Ex Ey Hm Hn Pa Pb.
  intro Hb. assert (HI : inblk o (sh_m s) (sh_n s) (o + 2) = true /\ ix o (sh_m s) (o + 2) = 0%nat /\ jx o (sh_m s) (o + 2) = 0%nat /\ cx o (o + 2) = 2%nat).
  { replace (o + 2)%nat with (dofpos o (sh_m s) 0 0 + 2)%nat by (unfold dofpos; lia). apply dofpos_in; [assumption|assumption|unfold DOF; lia]. }
  destruct HI as (HI & H1 & H2 & H3). unfold fullmat. rewrite HI, H1, H2, H3. cbn [andb].
  destruct first_values as (X1 & Y1 & X0 & Y0). pose proof (rule_1d_sym (e_rule E) (pn_nx p) exact_basis (sh_m s)) as Sx. pose proof (rule_1d_sym (e_rule E) (pn_ny p) exact_basis (sh_n s)) as Sy.
  assert (Q : forall z, z <> 0 -> J * z <> 0). { intros z Hz. apply Rmult_integral_contrapositive_currified; [|exact Hz]. assert (0 < sh_a s * sh_b s) by (apply Rmult_lt_0_compat; assumption). lra. }
  intro HE. apply (Q (be * (if fx then 2 / sh_a s else 2 / sh_b s) * (26 / 35))).
  - apply Rmult_integral_contrapositive_currified; [|lra]. apply Rmult_integral_contrapositive_currified; [exact Hb|].
    destruct fx; unfold Rdiv; apply Rmult_integral_contrapositive_currified; try lra; apply Rinv_neq_0_compat; lra.
  - revert HE. unfold V_gen. cbn [sumn opA Mneg Mpos xedge yedge]. destruct fx; cbn [sumn opA Mneg Mpos xedge yedge].
    + rewrite (Sx 1%nat 0%nat 0%nat 0%nat) by assumption. rewrite X1, Y0, X0. intro HE. lra.
    + rewrite (Sy 1%nat 0%nat 0%nat 0%nat) by assumption. rewrite Y1, Y0, X0. intro HE. lra.
Qed.
End Any.
