(* The stiffener kernels: bilinear forms as integrals along the line of the stiffener. *)
From Coq Require Import Reals List Arith Bool Lia Lra.
From Coquelicot Require Import Coquelicot.
From Verif Require Import Base_Sum Model_Types Model_Coo Model_Conn Model_StiffKer Spec_Algebra Spec_Kinematics Spec_Quadrature Spec_Panel Spec_Integral Spec_Fext Spec_Conn Spec_Stiff
  Proof_Coo Proof_Ana Proof_AnaKer Proof_Terms Proof_Mismatch Proof_Pd Proof_Conn.
Import ListNotations.
Open Scope R_scope.

Section One.
Variables (T : tables) (Bs : basis) (s : shell).
Hypothesis HT : tables_integrate T Bs (Nat.max (sh_m s) (sh_n s)).
Notation m := (sh_m s). Notation n := (sh_n s).

(* a list of weighted products of terms *)
Record prod1 := mkProd { pk : R; pA : tm; pB : tm }.
Definition val1 (y : R) (ps : list prod1) : val4 := fun i k j l p q =>
  suml ps (fun r => term (tp (pA r)) (tp (pB r)) (fun i k j l => pk r * Wx T Bs s s y y (pA r) (pB r) i k j l) i k j l p q).
Definition fL (y : R) (o : nat) (t : tm) (c : nat -> R) (x : R) : R :=
  ritz m n (own o c) (tp t) (gX Bs s x t) (gY Bs s y t).
Lemma HT2 : tables_integrate T Bs (Nat.max (Nat.max m n) (Nat.max m n)).
Proof using HT. rewrite Nat.max_id. exact HT. Qed.

Theorem line_one ps y o ker N c d :
  (o + 3 * (m * n) <= N)%nat ->
  (forall r, In r ps -> (tp (pA r) < 3)%nat /\ (tp (pB r) < 3)%nat) ->
  (forall i k j l, wf_block (ker i k j l)) ->
  (forall i k j l p q, (p < DOF)%nat -> (q < DOF)%nat -> loc (ker i k j l) p q = val1 y ps i k j l p q) ->
  (forall i k j l p q, (i < m)%nat -> (k < m)%nat -> (j < n)%nat -> (l < n)%nat -> (p < DOF)%nat -> (q < DOF)%nat -> val1 y ps i k j l p q = val1 y ps k i l j q p) ->
  is_line (fun x => suml ps (fun r => pk r * (fL y o (pA r) c x * fL y o (pB r) d x)))
    (bilinear N (finalize_symmetric (dense (loop_ikjl true o o m n m n ker))) c d).
Proof using HT.
  intros HN Hp Hw HL Hs.
  rewrite (bilinear_ext N _ (fullmat o m n (val1 y ps))).
  2:{ apply block_full; [exact Hs|]. apply diag_form_ikjl; assumption. }
  rewrite bilinear_diag by (unfold DOF; lia). unfold val1. rewrite tsum_suml.
  apply (isI_suml R is_line line_plus line_0).
  intros r Hr. destruct (Hp r Hr) as [H1 H2].
  apply (prod_x T Bs s s HT2 s s o o y y (pA r) (pB r) (pk r) c d); try assumption; split; lia.
Qed.

(* squares and symmetric products *)
Definition sqs (ds : list (R * tm)) (os : list (R * tm * tm)) : list prod1 :=
  map (fun d => mkProd (fst d) (snd d) (snd d)) ds ++
  flat_map (fun o => [mkProd (fst (fst o)) (snd (fst o)) (snd o); mkProd (fst (fst o)) (snd o) (snd (fst o))]) os.
Lemma term_sym y r t t' i k j l p q : (i < m)%nat -> (k < m)%nat ->
  term (tp t) (tp t') (fun i k j l => r * Wx T Bs s s y y t t' i k j l) i k j l p q =
  term (tp t') (tp t) (fun i k j l => r * Wx T Bs s s y y t' t i k j l) k i l j q p.
Proof using HT.
  intros Hi Hk. unfold term. rewrite (andb_comm (p =? tp t)%nat). destruct (_ && _)%bool; [|reflexivity].
  unfold Wx, tX. rewrite (tab_symm T Bs s s HT2 (tdx t)) by lia. ring.
Qed.
Lemma sqs_sym y ds os i k j l p q : (i < m)%nat -> (k < m)%nat -> val1 y (sqs ds os) i k j l p q = val1 y (sqs ds os) k i l j q p.
Proof using HT.
  intros Hi Hk. unfold val1, sqs. rewrite !suml_app, !suml_map, !suml_flat_map. f_equal.
  - apply suml_ext; intros d _. cbn [pA pB pk]. apply term_sym; assumption.
  - apply suml_ext; intros d _. cbn [suml pA pB pk]. rewrite !Rplus_0_r, Rplus_comm. f_equal; apply term_sym; assumption.
Qed.
End One.

Definition t_u := mkTm 1 0 0 0. Definition t_v := mkTm 1 1 0 0. Definition t_w := mkTm 1 2 0 0.
Definition t_ux := mkTm 1 0 1 0. Definition t_wx := mkTm 1 2 1 0. Definition t_wy := mkTm 1 2 0 1.
Definition t_wxx := mkTm 1 2 2 0. Definition t_wxy := mkTm 1 2 1 1.
Definition ps_Cf (a b bfl df E1 F1 S1 J : R) : list prod1 :=
  sqs [(2 * E1 * bfl / a, t_ux); (8 * bfl * (E1 * df * df + F1) / (a * a * a), t_wxx); (8 * J * bfl / (a * b * b), t_wxy)]
      [(4 * E1 * df * bfl / (a * a), t_ux, t_wxx); (- (4 * S1 * bfl / (a * b)), t_ux, t_wxy); (- (8 * S1 * df * bfl / (a * a * b)), t_wxx, t_wxy)].
Definition ps_Gf (a Fx : R) : list prod1 := sqs [(2 * Fx / a, t_wx)] [].
Definition k6 : R := 166666666666667 / 1000000000000000.
Definition ps_Mf (a b rho h hb hf bfl df : R) : list prod1 :=
  let I := 4 * (bfl * bfl) + 6 * bfl * (h + 2 * hb) + 3 * (h + 2 * hb) ^ 2 in
  let M := bfl * hf * rho in
  sqs [(a / 2 * M, t_u); (a / 2 * M, t_v); (3 * k6 * a * M, t_w); (k6 / a * M * I, t_wx); (k6 * a / (b * b) * M * I, t_wy)]
      [(2 * df * M, t_u, t_wx); (2 * df * M * a / b, t_v, t_wy)].

Section Kernels.
Variables (T : tables) (Bs : basis) (s : shell) (o N : nat) (ys : R) (c d : nat -> R).
Hypothesis HT : tables_integrate T Bs (Nat.max (sh_m s) (sh_n s)).
Hypothesis Ho : (o + 3 * (sh_m s * sh_n s) <= N)%nat.
Hypothesis Ha : sh_a s <> 0. Hypothesis Hb : sh_b s <> 0.
Notation y := (natural ys (sh_b s)).

Ltac loc1_tac := let Hp := fresh in let Hq := fresh in
  intros ? ? ? ? p q Hp Hq; unfold DOF in *;
  destruct p as [|[|[|p]]]; try lia; destruct q as [|[|[|q]]]; try lia;
  cbv [loc suml val1 sqs map flat_map app fst snd ps_Cf ps_Gf ps_Mf k6 term pA pB pk tk tp tdx tdy t_u t_v t_w t_ux t_wx t_wy t_wxx t_wxy Wx tX gX gY tab shape xedge yedge
       fkCf_ker fkGf_ker fkMf_ker natural Nat.eqb andb];
  field; auto.
Ltac one_tac := [> exact HT | exact Ho | cbn; intros r Hr; repeat (destruct Hr as [<-|Hr]; [cbn; lia|]); destruct Hr | wf3 | loc1_tac | intros; apply (sqs_sym T Bs s HT); assumption ].
Ltac work_tac :=
  cbv [flange_work flange_force_work fibre_strain suml sqs map flat_map app fst snd ps_Cf ps_Gf ps_Mf k6 pA pB pk tk tp tdx tdy t_u t_v t_w t_ux t_wx t_wy t_wxx t_wxy fL gX gY shape
    d_u d_v d_w d_ux d_wx d_wy d_wxx d_wxy fld].

Theorem fkCf_work bfl df E1 F1 S1 J :
  line_work s ys (flange_work Bs s bfl df E1 F1 S1 J (own o c) (own o d))
    (bilinear N (finalize_symmetric (dense (fkCf T Bs s ys bfl df E1 F1 S1 J o o))) c d).
Proof using HT Ho Ha Hb.
  unfold line_work. eapply along_side; [exact Ha| |].
  - unshelve eapply (line_one T Bs s HT (ps_Cf (sh_a s) (sh_b s) bfl df E1 F1 S1 J) y o (fkCf_ker T Bs s ys bfl df E1 F1 S1 J)).
    + exact Ho.
    + cbn. intros r Hr. repeat (destruct Hr as [<-|Hr]; [cbn; lia|]). destruct Hr.
    + wf3.
    + loc1_tac.
    + intros; apply (sqs_sym T Bs s HT); assumption.
  - intro t. cbv beta. work_tac. field. auto.
Qed.

Theorem fkGf_work Fx :
  line_work s ys (flange_force_work Bs s Fx (own o c) (own o d))
    (bilinear N (finalize_symmetric (dense (fkGf T Bs s ys Fx o o))) c d).
Proof using HT Ho Ha Hb.
  unfold line_work. eapply along_side; [exact Ha| |].
  - unshelve eapply (line_one T Bs s HT (ps_Gf (sh_a s) Fx) y o (fkGf_ker T Bs s ys Fx)).
    + exact Ho.
    + cbn. intros r Hr. repeat (destruct Hr as [<-|Hr]; [cbn; lia|]). destruct Hr.
    + wf3.
    + loc1_tac.
    + intros; apply (sqs_sym T Bs s HT); assumption.
  - intro t. cbv beta. work_tac. field. auto.
Qed.
Theorem fkMf_work rho h hb hf bfl df :
  line_work s ys (fun xi eta =>
      let U k c := match k with 0%nat => d_u Bs s (own o c) xi eta | 1%nat => d_v Bs s (own o c) xi eta | 2%nat => d_w Bs s (own o c) xi eta
                   | 3%nat => d_wx Bs s (own o c) xi eta | _ => d_wy Bs s (own o c) xi eta end in
      let I := k6 / 2 * (4 * (bfl * bfl) + 6 * bfl * (h + 2 * hb) + 3 * (h + 2 * hb) ^ 2) in
      rho * hf * bfl * (U 0%nat c * U 0%nat d + U 1%nat c * U 1%nat d + 6 * k6 * (U 2%nat c * U 2%nat d)
        + 2 * df * (U 0%nat c * U 3%nat d + U 3%nat c * U 0%nat d) + 2 * df * (U 1%nat c * U 4%nat d + U 4%nat c * U 1%nat d)
        + I * (U 3%nat c * U 3%nat d + U 4%nat c * U 4%nat d)))
    (bilinear N (finalize_symmetric (dense (fkMf T Bs s ys rho h hb hf bfl df o o))) c d).
Proof using HT Ho Ha Hb.
  unfold line_work. eapply along_side; [exact Ha| |].
  - unshelve eapply (line_one T Bs s HT (ps_Mf (sh_a s) (sh_b s) rho h hb hf bfl df) y o (fkMf_ker T Bs s ys rho h hb hf bfl df)).
    + exact Ho.
    + cbn. intros r Hr. repeat (destruct Hr as [<-|Hr]; [cbn; lia|]). destruct Hr.
    + wf3.
    + loc1_tac.
    + intros; apply (sqs_sym T Bs s HT); assumption.
  - intro t. cbv beta. work_tac. field. auto.
Qed.
End Kernels.

(* the skin-flange connection is the connection BFycte of skin and flange of equal length *)
Definition skin_flange (T : tables) (Bs : basis) (kt kr : R) (s q : shell) (ys : R) (oA oB : nat) : coo :=
  fkCss T Bs kt kr s ys oA oA ++ fkCsf T Bs kt kr s q ys (sh_b q) oA oB ++ fkCff T Bs kt kr (sh_a s) (sh_b q) q oB oB.
Section Flange.
Variables (T : tables) (Bs : basis) (s q : shell) (oA oB N : nat) (c d : nat -> R).
Hypothesis HT : tables_integrate T Bs (Nat.max (Nat.max (sh_m s) (sh_n s)) (Nat.max (sh_m q) (sh_n q))).
Hypothesis HoA : (oA + 3 * (sh_m s * sh_n s) <= oB)%nat.
Hypothesis HoB : (oB + 3 * (sh_m q * sh_n q) <= N)%nat.
Hypothesis Ha1 : sh_a s <> 0. Hypothesis Hb1 : sh_b s <> 0. Hypothesis Hb2 : sh_b q <> 0. Hypothesis Hq : sh_a q = sh_a s.
Notation U := (ritz_field Bs s (own oA c)). Notation V := (ritz_field Bs q (own oB c)).
Notation U' := (ritz_field Bs s (own oA d)). Notation V' := (ritz_field Bs q (own oB d)).
Ltac loc2_tac := let Hp := fresh in let Hq := fresh in
  intros ? ? ? ? p r Hp Hq; unfold DOF in *;
  destruct p as [|[|[|p]]]; try lia; destruct r as [|[|[|r]]]; try lia;
  cbv [loc suml sumpairs pairs term mA mB mk tk tp tdx tdy U1 Um ms_BFy Wx tX gX gY tab shape xedge yedge
       fkCss_ker fkCsf_ker fkCff_ker natural Nat.eqb andb];
  replace (2 * 0 / sh_b q - 1) with (-1) by (field; auto); field; auto.
Theorem skin_flange_work kt kr ys :
  work_along_x (jumps_BFycte kt kr) s q ys 0 U V U' V' (bilinear N (finalize_symmetric (dense (skin_flange T Bs kt kr s q ys oA oB))) c d).
Proof using HT HoA HoB Ha1 Hb1 Hb2 Hq.
  unfold work_along_x. eapply along_side; [exact Ha1| |].
  - unshelve eapply (family_x T Bs s q HT (ms_BFy s q kt kr) (natural ys (sh_b s)) (natural 0 (sh_b q)) oA oB).
    + exact HoA. + exact HoB. + ms_ok. + wf3. + wf3. + wf3. + loc2_tac. + loc2_tac. + loc2_tac.
  - assert (Ha2 : sh_a q <> 0) by (rewrite Hq; exact Ha1).
    intro t. cbv beta. 
    cbv [jump_work suml fst snd jumps_BFycte ms_BFy mk mA mB U1 Um mismatch fA fB tk tp tdx tdy
    ritz_field gX gY shape d_u d_v d_w d_wx d_wy fld].
    rewrite natural_ratio by assumption. field. auto.
Qed.
End Flange.
