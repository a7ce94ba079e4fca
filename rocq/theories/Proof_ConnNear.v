(* Connection kernels with the shipped shape functions and tables against the exact ones. *)
From Coq Require Import Reals List Arith Bool ZArith Lia Lra.
From Coquelicot Require Import Coquelicot.
From Verif Require Import Base_Sum Data_Bardell Model_Types Model_Coo Model_Result Model_Num Model_DB Model_Bardell Model_Shell Model_Conn
  Spec_Algebra Spec_Kinematics Spec_Quadrature Spec_Panel Spec_Shell Spec_Bardell Spec_Integral Spec_Rounded
  Proof_Poly Proof_Bardell Proof_BardellInt Proof_Gauss Proof_AnaKer Proof_Ana Proof_Ana3 Proof_AnaApi Proof_Coo Proof_Terms Proof_Mismatch Proof_Pd Proof_Near Proof_Conn.
From Coq Require Import List.
Import ListNotations.
Open Scope R_scope.

(* ------------------------------------------------- values of the first twelve functions *)
Lemma gz_next p i x : (p < 2)%nat -> is_derive (qeval (gz p i)) x (qeval (gz (S p) i) x).
Proof.
  intro Hp. destruct p as [|[|p]]; [| |lia]; cbn [gz]; unfold bz1, bz2.
  - destruct (bz i) as [D l]. apply qeval_derive.
  - apply (qeval_derive (fst (bz i)) (zderiv (snd (bz i)))).
Qed.
Lemma qeval_continuous q x : continuous (qeval q) x.
Proof. destruct q as [D l]. apply (ex_derive_continuous (V := R_NormedModule) (qeval (D, l))). eexists. apply qeval_derive. Qed.
Lemma gz_left p i : (p < 2)%nat -> (i < 30)%nat -> Rabs (qeval (gz p i) (-1)) <= 1.
Proof.
  intros Hp Hi. destruct (bardell_ends i Hi) as (E1 & _ & E3 & _). destruct p as [|[|p]]; [| |lia]; cbn [gz].
  - rewrite <- bardell_qeval by exact Hi. rewrite E1. destruct (_ =? _)%nat; rewrite ?Rabs_R1, ?Rabs_R0; lra.
  - rewrite <- Derive_bardell by exact Hi. rewrite E3. destruct (i =? 1)%nat; unfold Rabs; destruct (Rcase_abs _); lra.
Qed.
Lemma gz_bound p i x : (p < 2)%nat -> (i < 12)%nat -> -1 <= x <= 1 -> Rabs (qeval (gz p i) x) <= 3.
Proof.
  intros Hp Hi Hx. pose proof (near_good (S p) i Hi) as G.
  pose proof (qsq_le2 (S p) i _ G Hi) as Q2. pose proof (qprod_RInt (S p) i (S p) i _ _ G G Hi Hi) as QI.
  set (g := qeval (gz (S p) i)) in *. set (f := qeval (gz p i)) in *. pose proof (gz_left p i Hp ltac:(lia)) as L. fold f in L.
  assert (F : is_RInt g (-1) x (f x - f (-1))).
  { apply (is_RInt_derive f g); intros t _; [apply gz_next; exact Hp|apply qeval_continuous]. }
  set (h := fun t => / 2 * (1 + g t * g t)).
  assert (hc : forall t, continuous h t).
  { intro t. unfold h. apply (continuous_mult (fun _ => / 2)); [apply continuous_const|].
    apply (continuous_plus (V := R_NormedModule) (fun _ => 1)); [apply continuous_const|]. apply (continuous_mult (K := R_AbsRing)); apply qeval_continuous. }
  assert (H1 : is_RInt h (-1) 1 (/ 2 * (2 + prodv (S p) i (S p) i))).
  { unfold h. apply (is_RInt_scal (V := R_NormedModule) (fun t => 1 + g t * g t)). apply (is_RInt_plus (V := R_NormedModule) (fun _ => 1)); [|exact QI].
    evar_last; [apply (is_RInt_const (V := R_NormedModule))|]. unfold scal; cbn; unfold mult; cbn. lra. }
  assert (Xa : ex_RInt h (-1) x) by (apply (@ex_RInt_continuous R_CompleteNormedModule); intros; apply hc).
  assert (Xb : ex_RInt h x 1) by (apply (@ex_RInt_continuous R_CompleteNormedModule); intros; apply hc).
  destruct Xa as [A HA]. destruct Xb as [B HB].
  assert (B0 : 0 <= B).
  { apply (is_RInt_le (fun _ => 0) h x 1 0 B); [lra| |exact HB|].
    - evar_last; [apply (is_RInt_const (V := R_NormedModule))|]. unfold scal; cbn; unfold mult; cbn. lra.
    - intros t _. unfold h. pose proof (Rle_0_sqr (g t)) as S0. unfold Rsqr in S0. lra. }
  assert (AB : A + B = / 2 * (2 + prodv (S p) i (S p) i)).
  { rewrite <- (@is_RInt_unique R_CompleteNormedModule _ _ _ _ H1). symmetry. apply (@is_RInt_unique R_CompleteNormedModule).
    apply (is_RInt_Chasles (V := R_NormedModule) h (-1) x 1); assumption. }
  assert (U : f x - f (-1) <= A).
  { apply (is_RInt_le g h (-1) x _ _ ltac:(lra) F HA). intros t _. unfold h. pose proof (Rle_0_sqr (g t - 1)) as S0. unfold Rsqr in S0. lra. }
  assert (V : - (f x - f (-1)) <= A).
  { apply (is_RInt_le (fun t => - g t) h (-1) x _ _ ltac:(lra)); [apply (is_RInt_opp (V := R_NormedModule) g); exact F|exact HA|].
    intros t _. unfold h. pose proof (Rle_0_sqr (g t + 1)) as S0. unfold Rsqr in S0. lra. }
  clearbody f g h. unfold Rabs in *. repeat destruct (Rcase_abs _); lra.
Qed.

Lemma unit_flag e i : unit_flags e -> Rabs (flag e i) <= 1.
Proof. intros (A & B & C & D). destruct i as [|[|[|[|i]]]]; cbn [flag]; try assumption. rewrite Rabs_R1. lra. Qed.

Lemma near_point p i x e : (p < 2)%nat -> (i < 12)%nat -> -1 <= x <= 1 -> unit_flags e ->
  Rabs (shape code_basis p i x e - shape exact_basis p i x e) <= 3 / 10 ^ 13 /\ Rabs (shape exact_basis p i x e) <= 3.
Proof.
  intros Hp Hi Hx He. destruct (g_near _ _ _ (near_good p i Hi)) as (d & E & N). rewrite E, shape_exact by lia.
  specialize (N x Hx). pose proof (gz_bound p i x Hp Hi Hx) as B. pose proof (unit_flag e i He) as F. split.
  - rewrite <- Rmult_minus_distr_l, Rabs_mult. rewrite <- (Rmult_1_l (3 / 10 ^ 13)). apply Rmult_le_compat; try apply Rabs_pos; assumption.
  - rewrite Rabs_mult. replace 3 with (1 * 3) by ring. apply Rmult_le_compat; try apply Rabs_pos; assumption.
Qed.
Lemma near_table p q i k e e' : (i < 12)%nat -> (k < 12)%nat -> unit_flags e -> unit_flags e' ->
  Rabs (tab code_tables p q i k e e' - tab exact_tables p q i k e e') <= 1 / 10 ^ 14 /\ Rabs (tab exact_tables p q i k e e') <= 2.
Proof.
  intros Hi Hk He He'. pose proof (near_good p i Hi) as Gp. pose proof (near_good q k Hk) as Gq.
  pose proof (qprod_abs p i q k _ _ Gp Gq Hi Hk) as HB.
  assert (EX : tab exact_tables p q i k e e' = flag e i * flag e' k * prodv p i q k).
  { pose proof (tab_integrates _ _ _ (exact_tables_integrate 12 ltac:(lia)) p q i k e e' Hi Hk) as HI.
    rewrite <- (@is_RInt_unique R_CompleteNormedModule _ _ _ _ HI). apply (@is_RInt_unique R_CompleteNormedModule).
    pose proof (is_RInt_scal _ _ _ (flag e i * flag e' k) _ (qprod_RInt p i q k _ _ Gp Gq Hi Hk)) as HS.
    eapply is_RInt_ext; [|exact HS]. intros x _. rewrite !shape_exact by lia. unfold scal; cbn; unfold mult; cbn. ring. }
  pose proof (code_one_d_close 12 ltac:(lia) p q i k e e' Hi Hk) as HT.
  assert (HFP : Rabs (tab exact_tables p q i k e e') <= 2).
  { rewrite EX, Rabs_mult, Rabs_mult. replace 2 with (1 * 1 * 2) by ring.
    apply Rmult_le_compat; try apply Rabs_pos; try assumption.
    - apply Rmult_le_pos; apply Rabs_pos.
    - apply Rmult_le_compat; try apply Rabs_pos; apply unit_flag; assumption. }
  split; [|exact HFP]. lra.
Qed.

(* ------------------------------------------------- products *)
Lemma near_mult a a' b b' da db Ma Mb : Rabs (a - a') <= da -> Rabs (b - b') <= db -> Rabs a' <= Ma -> Rabs b' <= Mb ->
  Rabs (a * b - a' * b') <= da * (Mb + db) + Ma * db /\ Rabs (a' * b') <= Ma * Mb.
Proof.
  intros Ha Hb HA HB. assert (0 <= da) by (pose proof (Rabs_pos (a - a')); lra). split.
  - replace (a * b - a' * b') with ((a - a') * b + a' * (b - b')) by ring. eapply Rle_trans; [apply Rabs_triang|]. rewrite !Rabs_mult.
    apply Rplus_le_compat; apply Rmult_le_compat; try apply Rabs_pos; try assumption.
    replace b with (b' + (b - b')) by ring. eapply Rle_trans; [apply Rabs_triang|]. lra.
  - rewrite Rabs_mult. apply Rmult_le_compat; try apply Rabs_pos; assumption.
Qed.

(* ------------------------------------------------- sums of pairs of terms *)
Definition absum (l : list tm) : R := suml l (fun t => Rabs (tk t)).
Lemma absum_pos l : 0 <= absum l.
Proof. unfold absum. induction l as [|t l IH]; cbn [suml]; [lra|]. pose proof (Rabs_pos (tk t)). lra. Qed.
Lemma suml_near {A} (l : list A) f g b : (forall a, In a l -> Rabs (f a - g a) <= b a) -> Rabs (suml l f - suml l g) <= suml l b.
Proof.
  induction l as [|a l IH]; intro H; cbn [suml]; [rewrite Rminus_0_r, Rabs_R0; lra|].
  replace (f a + suml l f - (g a + suml l g)) with ((f a - g a) + (suml l f - suml l g)) by ring.
  eapply Rle_trans; [apply Rabs_triang|]. apply Rplus_le_compat; [apply H; left; reflexivity|apply IH; intros; apply H; right; assumption].
Qed.
Lemma pairs_near la lb W W' k0 eps i k j l p q : 0 <= eps ->
  (forall t t', In t la -> In t' lb -> Rabs (W t t' i k j l - W' t t' i k j l) <= eps) ->
  Rabs (pairs la lb W k0 i k j l p q - pairs la lb W' k0 i k j l p q) <= eps * (Rabs k0 * (absum la * absum lb)).
Proof.
  intros He H. unfold pairs.
  replace (eps * (Rabs k0 * (absum la * absum lb))) with (suml la (fun t => suml lb (fun t' => eps * (Rabs k0 * (Rabs (tk t) * Rabs (tk t')))))).
  2:{ unfold absum. rewrite <- suml_scal_r, <- !suml_scal. apply suml_ext; intros t _. rewrite <- !suml_scal. apply suml_ext; intros; ring. }
  apply suml_near. intros t Ht. apply suml_near. intros t' Ht'. unfold term. destruct (_ && _)%bool.
  - rewrite <- Rmult_minus_distr_l, Rabs_mult, !Rabs_mult. rewrite Rmult_comm. apply Rmult_le_compat; try apply Rabs_pos.
    + repeat apply Rmult_le_pos; apply Rabs_pos.
    + apply H; assumption.
    + lra.
  - rewrite Rminus_0_r, Rabs_R0. repeat apply Rmult_le_pos; try apply Rabs_pos. exact He.
Qed.

Lemma sumpairs_near ms A B W W' eps i k j l p q : 0 <= eps ->
  (forall m t t', In m ms -> In t (A m) -> In t' (B m) -> Rabs (W t t' i k j l - W' t t' i k j l) <= eps) ->
  Rabs (sumpairs ms A B W i k j l p q - sumpairs ms A B W' i k j l p q) <= eps * suml ms (fun m => Rabs (mk m) * (absum (A m) * absum (B m))).
Proof.
  intros He H. unfold sumpairs. rewrite <- suml_scal. apply suml_near. intros m Hm. apply pairs_near; [exact He|]. intros t t' Ht Ht'. apply (H m); assumption.
Qed.

(* the entries of the loop over two blocks *)
Lemma loop_near skip o o' m n m' n' ker ker' eps r t : 0 <= eps ->
  (forall i k j l p q, (i < m)%nat -> (k < m')%nat -> (j < n)%nat -> (l < n')%nat -> (p < DOF)%nat -> (q < DOF)%nat ->
     Rabs (loc (ker i k j l) p q - loc (ker' i k j l) p q) <= eps) ->
  Rabs (loop_value skip o o' m n m' n' ker r t - loop_value skip o o' m n m' n' ker' r t) <= eps.
Proof.
  intros He H. unfold loop_value. destruct (inblk o m n r && inblk o' m' n' t)%bool eqn:B; [|rewrite Rminus_0_r, Rabs_R0; exact He].
  destruct (skipped _ _ _ _ _ _ _ _ _); [rewrite Rminus_0_r, Rabs_R0; exact He|].
  apply andb_true_iff in B. destruct B as [B1 B2].
  destruct (inblk_bounds _ _ _ _ B1) as (b1 & b2 & b3 & _). destruct (inblk_bounds _ _ _ _ B2) as (c1 & c2 & c3 & _). apply H; assumption.
Qed.

(* ------------------------------------------------- the three families *)
Definition low (t : tm) : Prop := (tdx t < 2)%nat /\ (tdy t < 2)%nat.
Definition mis_low (m : mis) : Prop := List.Forall low (mA m) /\ List.Forall low (mB m).
Definition within12 (s : shell) : Prop := (sh_m s <= 12)%nat /\ (sh_n s <= 12)%nat /\ unit_edges s.
Definition mis_scale (ms : list mis) : R := suml ms (fun m => Rabs (mk m) * ((absum (mA m) + absum (mB m)) * (absum (mA m) + absum (mB m)))).

Lemma Wx_near sA sB y y' t t' i k j l : within12 sA -> within12 sB -> low t -> low t' -> -1 <= y <= 1 -> -1 <= y' <= 1 ->
  (i < sh_m sA)%nat -> (k < sh_m sB)%nat -> (j < sh_n sA)%nat -> (l < sh_n sB)%nat ->
  Rabs (Wx code_tables code_basis sA sB y y' t t' i k j l - Wx exact_tables exact_basis sA sB y y' t t' i k j l) <= 4 / 10 ^ 12.
Proof.
  intros (A1 & A2 & A3) (B1 & B2 & B3) (_ & T2) (_ & T2') Hy Hy' Hi Hk Hj Hl. unfold Wx, tX, gY.
  destruct (near_table (tdx t) (tdx t') i k (xedge sA (tp t)) (xedge sB (tp t'))) as [N1 M1]; [lia|lia|apply A3|apply B3|].
  destruct (near_point (tdy t) j y (yedge sA (tp t))) as [N2 M2]; [exact T2|lia|exact Hy|apply A3|].
  destruct (near_point (tdy t') l y' (yedge sB (tp t'))) as [N3 M3]; [exact T2'|lia|exact Hy'|apply B3|].
  destruct (near_mult _ _ _ _ _ _ _ _ N2 N3 M2 M3) as [N4 M4]. destruct (near_mult _ _ _ _ _ _ _ _ N1 N4 M1 M4) as [N5 _].
  eapply Rle_trans; [exact N5|]. lra.
Qed.
Lemma Wy_near sA sB x x' t t' i k j l : within12 sA -> within12 sB -> low t -> low t' -> -1 <= x <= 1 -> -1 <= x' <= 1 ->
  (i < sh_m sA)%nat -> (k < sh_m sB)%nat -> (j < sh_n sA)%nat -> (l < sh_n sB)%nat ->
  Rabs (Wy code_tables code_basis sA sB x x' t t' i k j l - Wy exact_tables exact_basis sA sB x x' t t' i k j l) <= 4 / 10 ^ 12.
Proof.
  intros (A1 & A2 & A3) (B1 & B2 & B3) (T2 & _) (T2' & _) Hy Hy' Hi Hk Hj Hl. unfold Wy, tY, gX.
  destruct (near_table (tdy t) (tdy t') j l (yedge sA (tp t)) (yedge sB (tp t'))) as [N1 M1]; [lia|lia|apply A3|apply B3|].
  destruct (near_point (tdx t) i x (xedge sA (tp t))) as [N2 M2]; [exact T2|lia|exact Hy|apply A3|].
  destruct (near_point (tdx t') k x' (xedge sB (tp t'))) as [N3 M3]; [exact T2'|lia|exact Hy'|apply B3|].
  destruct (near_mult _ _ _ _ _ _ _ _ N2 N3 M2 M3) as [N4 M4]. destruct (near_mult _ _ _ _ _ _ _ _ N1 N4 M1 M4) as [N5 _].
  eapply Rle_trans; [exact N5|]. lra.
Qed.
Lemma Wa_near sA sB t t' i k j l : within12 sA -> within12 sB ->
  (i < sh_m sA)%nat -> (k < sh_m sB)%nat -> (j < sh_n sA)%nat -> (l < sh_n sB)%nat ->
  Rabs (Wa code_tables sA sB t t' i k j l - Wa exact_tables sA sB t t' i k j l) <= 4 / 10 ^ 12.
Proof.
  intros (A1 & A2 & A3) (B1 & B2 & B3) Hi Hk Hj Hl. unfold Wa, tX, tY.
  destruct (near_table (tdx t) (tdx t') i k (xedge sA (tp t)) (xedge sB (tp t'))) as [N1 M1]; [lia|lia|apply A3|apply B3|].
  destruct (near_table (tdy t) (tdy t') j l (yedge sA (tp t)) (yedge sB (tp t'))) as [N2 M2]; [lia|lia|apply A3|apply B3|].
  destruct (near_mult _ _ _ _ _ _ _ _ N1 N2 M1 M2) as [N5 _].
  eapply Rle_trans; [exact N5|]. lra.
Qed.

Lemma mis_part eps ms (a b c : R) :
  a <= eps * suml ms (fun m => Rabs (mk m) * (absum (mA m) * absum (mA m))) ->
  b <= eps * suml ms (fun m => Rabs (mk m) * (absum (mA m) * absum (mB m))) ->
  c <= eps * suml ms (fun m => Rabs (mk m) * (absum (mB m) * absum (mB m))) -> 0 <= eps ->
  a + b + c <= eps * mis_scale ms.
Proof.
  intros Ha Hb Hc He. eapply Rle_trans; [apply Rplus_le_compat; [apply Rplus_le_compat|]; eassumption|].
  rewrite <- !Rmult_plus_distr_l. apply Rmult_le_compat_l; [exact He|]. rewrite <- !suml_plus. apply suml_le. intros m _.
  rewrite <- !Rmult_plus_distr_l. apply Rmult_le_compat_l; [apply Rabs_pos|].
  pose proof (absum_pos (mA m)). pose proof (absum_pos (mB m)). pose proof (Rmult_le_pos _ _ H H0). lra.
Qed.
Lemma mis_pos ms (A B : mis -> list tm) eps : 0 <= eps -> 0 <= eps * suml ms (fun m => Rabs (mk m) * (absum (A m) * absum (B m))).
Proof.
  intro He. apply Rmult_le_pos; [exact He|]. apply suml_ge0. intros m _. apply Rmult_le_pos; [apply Rabs_pos|]. apply Rmult_le_pos; apply absum_pos.
Qed.
Lemma sum3_near a b c a' b' c' x y z : Rabs (a - a') <= x -> Rabs (b - b') <= y -> Rabs (c - c') <= z -> Rabs (a + (b + c) - (a' + (b' + c'))) <= x + y + z.
Proof.
  intros. replace (a + (b + c) - (a' + (b' + c'))) with ((a - a') + (b - b') + (c - c')) by ring.
  eapply Rle_trans; [apply Rabs_triang|]. apply Rplus_le_compat; [|assumption]. eapply Rle_trans; [apply Rabs_triang|]. lra.
Qed.

Section Near.
Variables (s1 s2 : shell) (oA oB : nat) (ms : list mis).
Notation m1 := (sh_m s1). Notation n1 := (sh_n s1). Notation m2 := (sh_m s2). Notation n2 := (sh_n s2).
Hypothesis H1 : within12 s1.
Hypothesis H2 : within12 s2.
Hypothesis HL : List.Forall mis_low ms.
Let eps := 4 / 10 ^ 12.
Lemma eps_pos : 0 <= eps. Proof using . unfold eps. lra. Qed.
Lemma lowA m t : In m ms -> In t (mA m) -> low t.
Proof using HL. intros Hm Ht. rewrite List.Forall_forall in HL. destruct (HL m Hm) as [A _]. rewrite List.Forall_forall in A. apply A. exact Ht. Qed.
Lemma lowB m t : In m ms -> In t (mB m) -> low t.
Proof using HL. intros Hm Ht. rewrite List.Forall_forall in HL. destruct (HL m Hm) as [_ A]. rewrite List.Forall_forall in A. apply A. exact Ht. Qed.

Theorem near_blocks W11 W12 W22 W11' W12' W22' k11 k12 k22 k11' k12' k22' r t :
  (forall i k j l p q, (p < DOF)%nat -> (q < DOF)%nat -> loc (k11 i k j l) p q = sumpairs ms mA mA W11 i k j l p q) ->
  (forall i k j l p q, (p < DOF)%nat -> (q < DOF)%nat -> loc (k12 i k j l) p q = sumpairs ms mA mB W12 i k j l p q) ->
  (forall i k j l p q, (p < DOF)%nat -> (q < DOF)%nat -> loc (k22 i k j l) p q = sumpairs ms mB mB W22 i k j l p q) ->
  (forall i k j l p q, (p < DOF)%nat -> (q < DOF)%nat -> loc (k11' i k j l) p q = sumpairs ms mA mA W11' i k j l p q) ->
  (forall i k j l p q, (p < DOF)%nat -> (q < DOF)%nat -> loc (k12' i k j l) p q = sumpairs ms mA mB W12' i k j l p q) ->
  (forall i k j l p q, (p < DOF)%nat -> (q < DOF)%nat -> loc (k22' i k j l) p q = sumpairs ms mB mB W22' i k j l p q) ->
  (forall t t' i k j l, low t -> low t' -> (i < m1)%nat -> (k < m1)%nat -> (j < n1)%nat -> (l < n1)%nat -> Rabs (W11 t t' i k j l - W11' t t' i k j l) <= eps) ->
  (forall t t' i k j l, low t -> low t' -> (i < m1)%nat -> (k < m2)%nat -> (j < n1)%nat -> (l < n2)%nat -> Rabs (W12 t t' i k j l - W12' t t' i k j l) <= eps) ->
  (forall t t' i k j l, low t -> low t' -> (i < m2)%nat -> (k < m2)%nat -> (j < n2)%nat -> (l < n2)%nat -> Rabs (W22 t t' i k j l - W22' t t' i k j l) <= eps) ->
  let v (b : bool) oa ob ma na mb nb ker := loop_value b oa ob ma na mb nb ker r t in
  Rabs (v true oA oA m1 n1 m1 n1 k11 + (v false oA oB m1 n1 m2 n2 k12 + v true oB oB m2 n2 m2 n2 k22) -
        (v true oA oA m1 n1 m1 n1 k11' + (v false oA oB m1 n1 m2 n2 k12' + v true oB oB m2 n2 m2 n2 k22'))) <= eps * mis_scale ms.
Proof using HL.
  intros L11 L12 L22 L11' L12' L22' N11 N12 N22 v. pose proof eps_pos as He.
  assert (D11 : Rabs (v true oA oA m1 n1 m1 n1 k11 - v true oA oA m1 n1 m1 n1 k11') <= eps * suml ms (fun m => Rabs (mk m) * (absum (mA m) * absum (mA m)))).
  { apply loop_near; [apply mis_pos; exact He|]. intros i k j l p q Hi Hk Hj Hl Hp Hq. rewrite L11, L11' by assumption. apply sumpairs_near; [exact He|].
    intros m t0 t' Hm A B. apply N11; try assumption; eapply lowA; eassumption. }
  assert (D12 : Rabs (v false oA oB m1 n1 m2 n2 k12 - v false oA oB m1 n1 m2 n2 k12') <= eps * suml ms (fun m => Rabs (mk m) * (absum (mA m) * absum (mB m)))).
  { apply loop_near; [apply mis_pos; exact He|]. intros i k j l p q Hi Hk Hj Hl Hp Hq. rewrite L12, L12' by assumption. apply sumpairs_near; [exact He|].
    intros m t0 t' Hm A B. apply N12; try assumption; [eapply lowA|eapply lowB]; eassumption. }
  assert (D22 : Rabs (v true oB oB m2 n2 m2 n2 k22 - v true oB oB m2 n2 m2 n2 k22') <= eps * suml ms (fun m => Rabs (mk m) * (absum (mB m) * absum (mB m)))).
  { apply loop_near; [apply mis_pos; exact He|]. intros i k j l p q Hi Hk Hj Hl Hp Hq. rewrite L22, L22' by assumption. apply sumpairs_near; [exact He|].
    intros m t0 t' Hm A B. apply N22; try assumption; eapply lowB; eassumption. }
  eapply Rle_trans; [apply (sum3_near _ _ _ _ _ _ _ _ _ D11 D12 D22)|]. apply mis_part; try apply Rle_refl. exact He.
Qed.
End Near.

(* ------------------------------------------------- the kernels *)
Lemma dense3_ikjl oA oB mA nA mB nB k11 k12 k22 r t :
  (forall i k j l, wf_block (k11 i k j l)) -> (forall i k j l, wf_block (k12 i k j l)) -> (forall i k j l, wf_block (k22 i k j l)) ->
  dense (loop_ikjl true oA oA mA nA mA nA k11 ++ loop_ikjl false oA oB mA nA mB nB k12 ++ loop_ikjl true oB oB mB nB mB nB k22) r t =
  loop_value true oA oA mA nA mA nA k11 r t + (loop_value false oA oB mA nA mB nB k12 r t + loop_value true oB oB mB nB mB nB k22 r t).
Proof. intros. rewrite !dense_app, !dense_ikjl by assumption. reflexivity. Qed.
Lemma dense3_jlik oA oB mA nA mB nB k11 k12 k22 r t :
  (forall i k j l, wf_block (k11 i k j l)) -> (forall i k j l, wf_block (k12 i k j l)) -> (forall i k j l, wf_block (k22 i k j l)) ->
  dense (loop_jlik true oA oA mA nA mA nA k11 ++ loop_jlik false oA oB mA nA mB nB k12 ++ loop_jlik true oB oB mB nB mB nB k22) r t =
  loop_value true oA oA mA nA mA nA k11 r t + (loop_value false oA oB mA nA mB nB k12 r t + loop_value true oB oB mB nB mB nB k22 r t).
Proof. intros. rewrite !dense_app, !dense_jlik by assumption. reflexivity. Qed.

Section Kernels.
Variables (s1 s2 : shell) (oA oB : nat) (kt kr : R).
Hypothesis H1 : within12 s1.
Hypothesis H2 : within12 s2.
Hypothesis Hk : kt <> 0.
Hypothesis Ha1 : sh_a s1 <> 0. Hypothesis Hb1 : sh_b s1 <> 0. Hypothesis Ha2 : sh_a s2 <> 0. Hypothesis Hb2 : sh_b s2 <> 0.
Ltac mlow := repeat constructor.
Definition SSy3 T Bs y1 y2 := fkCSSycte11 T Bs kt kr s1 y1 oA oA ++ fkCSSycte12 T Bs kt kr s1 s2 y1 y2 oA oB ++ fkCSSycte22 T Bs kt kr s1 s2 y2 oB oB.
Lemma SSy_near y1 y2 r t : -1 <= natural y1 (sh_b s1) <= 1 -> -1 <= natural y2 (sh_b s2) <= 1 ->
  Rabs (dense (SSy3 code_tables code_basis y1 y2) r t - dense (SSy3 exact_tables exact_basis y1 y2) r t) <= 4 / 10 ^ 12 * mis_scale (ms_SSy s1 s2 kt kr).
Proof using H1 H2 Hk Ha1 Hb1 Ha2 Hb2.
  intros Y1 Y2. unfold SSy3, fkCSSycte11, fkCSSycte12, fkCSSycte22. rewrite !dense3_ikjl by wf3.
  apply (near_blocks s1 s2 oA oB (ms_SSy s1 s2 kt kr)) with
    (W11 := Wx code_tables code_basis s1 s1 (natural y1 (sh_b s1)) (natural y1 (sh_b s1))) (W11' := Wx exact_tables exact_basis s1 s1 (natural y1 (sh_b s1)) (natural y1 (sh_b s1)))
    (W12 := Wx code_tables code_basis s1 s2 (natural y1 (sh_b s1)) (natural y2 (sh_b s2))) (W12' := Wx exact_tables exact_basis s1 s2 (natural y1 (sh_b s1)) (natural y2 (sh_b s2)))
    (W22 := Wx code_tables code_basis s2 s2 (natural y2 (sh_b s2)) (natural y2 (sh_b s2))) (W22' := Wx exact_tables exact_basis s2 s2 (natural y2 (sh_b s2)) (natural y2 (sh_b s2)));
  [mlow|loc_tac|loc_tac|loc_tac|loc_tac|loc_tac|loc_tac| | |]; intros; apply Wx_near; assumption.
Qed.
Definition BFy3 T Bs y1 y2 := fkCBFycte11 T Bs kt kr s1 y1 oA oA ++ fkCBFycte12 T Bs kt kr s1 s2 y1 y2 oA oB ++ fkCBFycte22 T Bs kt kr s1 s2 y2 oB oB.
Lemma BFy_near y1 y2 r t : -1 <= natural y1 (sh_b s1) <= 1 -> -1 <= natural y2 (sh_b s2) <= 1 ->
  Rabs (dense (BFy3 code_tables code_basis y1 y2) r t - dense (BFy3 exact_tables exact_basis y1 y2) r t) <= 4 / 10 ^ 12 * mis_scale (ms_BFy s1 s2 kt kr).
Proof using H1 H2 Hk Ha1 Hb1 Ha2 Hb2.
  intros Y1 Y2. unfold BFy3, fkCBFycte11, fkCBFycte12, fkCBFycte22. rewrite !dense3_ikjl by wf3.
  apply (near_blocks s1 s2 oA oB (ms_BFy s1 s2 kt kr)) with
    (W11 := Wx code_tables code_basis s1 s1 (natural y1 (sh_b s1)) (natural y1 (sh_b s1))) (W11' := Wx exact_tables exact_basis s1 s1 (natural y1 (sh_b s1)) (natural y1 (sh_b s1)))
    (W12 := Wx code_tables code_basis s1 s2 (natural y1 (sh_b s1)) (natural y2 (sh_b s2))) (W12' := Wx exact_tables exact_basis s1 s2 (natural y1 (sh_b s1)) (natural y2 (sh_b s2)))
    (W22 := Wx code_tables code_basis s2 s2 (natural y2 (sh_b s2)) (natural y2 (sh_b s2))) (W22' := Wx exact_tables exact_basis s2 s2 (natural y2 (sh_b s2)) (natural y2 (sh_b s2)));
  [mlow|loc_tac|loc_tac|loc_tac|loc_tac|loc_tac|loc_tac| | |]; intros; apply Wx_near; assumption.
Qed.
Definition SSx3 T Bs x1 x2 := fkCSSxcte11 T Bs kt kr s1 x1 oA oA ++ fkCSSxcte12 T Bs kt kr s1 s2 x1 x2 oA oB ++ fkCSSxcte22 T Bs kt kr s1 s2 x2 oB oB.
Lemma SSx_near x1 x2 r t : -1 <= natural x1 (sh_a s1) <= 1 -> -1 <= natural x2 (sh_a s2) <= 1 ->
  Rabs (dense (SSx3 code_tables code_basis x1 x2) r t - dense (SSx3 exact_tables exact_basis x1 x2) r t) <= 4 / 10 ^ 12 * mis_scale (ms_SSx s1 s2 kt kr).
Proof using H1 H2 Hk Ha1 Hb1 Ha2 Hb2.
  intros Y1 Y2. unfold SSx3, fkCSSxcte11, fkCSSxcte12, fkCSSxcte22. rewrite !dense3_jlik by wf3.
  apply (near_blocks s1 s2 oA oB (ms_SSx s1 s2 kt kr)) with
    (W11 := Wy code_tables code_basis s1 s1 (natural x1 (sh_a s1)) (natural x1 (sh_a s1))) (W11' := Wy exact_tables exact_basis s1 s1 (natural x1 (sh_a s1)) (natural x1 (sh_a s1)))
    (W12 := Wy code_tables code_basis s1 s2 (natural x1 (sh_a s1)) (natural x2 (sh_a s2))) (W12' := Wy exact_tables exact_basis s1 s2 (natural x1 (sh_a s1)) (natural x2 (sh_a s2)))
    (W22 := Wy code_tables code_basis s2 s2 (natural x2 (sh_a s2)) (natural x2 (sh_a s2))) (W22' := Wy exact_tables exact_basis s2 s2 (natural x2 (sh_a s2)) (natural x2 (sh_a s2)));
  [mlow|loc_tac|loc_tac|loc_tac|loc_tac|loc_tac|loc_tac| | |]; intros; apply Wy_near; assumption.
Qed.
Definition BFx3 T Bs x1 x2 := fkCBFxcte11 T Bs kt kr s1 x1 oA oA ++ fkCBFxcte12 T Bs kt kr s1 s2 x1 x2 oA oB ++ fkCBFxcte22 T Bs kt kr s1 s2 x2 oB oB.
Lemma BFx_near x1 x2 r t : -1 <= natural x1 (sh_a s1) <= 1 -> -1 <= natural x2 (sh_a s2) <= 1 ->
  Rabs (dense (BFx3 code_tables code_basis x1 x2) r t - dense (BFx3 exact_tables exact_basis x1 x2) r t) <= 4 / 10 ^ 12 * mis_scale (ms_BFx s1 s2 kt kr).
Proof using H1 H2 Hk Ha1 Hb1 Ha2 Hb2.
  intros Y1 Y2. unfold BFx3, fkCBFxcte11, fkCBFxcte12, fkCBFxcte22. rewrite !dense3_jlik by wf3.
  apply (near_blocks s1 s2 oA oB (ms_BFx s1 s2 kt kr)) with
    (W11 := Wy code_tables code_basis s1 s1 (natural x1 (sh_a s1)) (natural x1 (sh_a s1))) (W11' := Wy exact_tables exact_basis s1 s1 (natural x1 (sh_a s1)) (natural x1 (sh_a s1)))
    (W12 := Wy code_tables code_basis s1 s2 (natural x1 (sh_a s1)) (natural x2 (sh_a s2))) (W12' := Wy exact_tables exact_basis s1 s2 (natural x1 (sh_a s1)) (natural x2 (sh_a s2)))
    (W22 := Wy code_tables code_basis s2 s2 (natural x2 (sh_a s2)) (natural x2 (sh_a s2))) (W22' := Wy exact_tables exact_basis s2 s2 (natural x2 (sh_a s2)) (natural x2 (sh_a s2)));
  [mlow|loc_tac|loc_tac|loc_tac|loc_tac|loc_tac|loc_tac| | |]; intros; apply Wy_near; assumption.
Qed.
Definition SB3 T dsb := fkCSB11 T kt dsb s1 oA oA ++ fkCSB12 T kt dsb s1 s2 oA oB ++ fkCSB22 T kt s1 s2 oB oB.
Lemma SB_near dsb r t :
  Rabs (dense (SB3 code_tables dsb) r t - dense (SB3 exact_tables dsb) r t) <= 4 / 10 ^ 12 * mis_scale (ms_SB s1 s2 kt dsb).
Proof using H1 H2 Ha1 Hb1 Ha2 Hb2.
  unfold SB3, fkCSB11, fkCSB12, fkCSB22. rewrite !dense3_ikjl by wf3.
  apply (near_blocks s1 s2 oA oB (ms_SB s1 s2 kt dsb)) with
    (W11 := Wa code_tables s1 s1) (W11' := Wa exact_tables s1 s1) (W12 := Wa code_tables s1 s2) (W12' := Wa exact_tables s1 s2)
    (W22 := Wa code_tables s2 s2) (W22' := Wa exact_tables s2 s2);
  [mlow|loc_tac|loc_tac|loc_tac|loc_tac|loc_tac|loc_tac| | |]; intros; apply Wa_near; assumption.
Qed.
End Kernels.
