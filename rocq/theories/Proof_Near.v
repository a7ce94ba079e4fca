(* Matrices calculated with the shipped quadrature rule and shape functions against the ones
   calculated from the shipped table of integrals. *)
From Coq Require Import Reals ZArith List Arith Bool Lia Lra.
From Coquelicot Require Import Coquelicot.
From Verif Require Import Base_Sum Data_Bardell Model_Types Model_Coo Model_Result Model_Num Model_DB Model_Bardell Model_Shell
  Spec_Algebra Spec_Kinematics Spec_Panel Spec_Shell Spec_Bardell Spec_Integral
  Proof_Poly Proof_Bardell Proof_BardellInt Proof_Gauss Proof_AnaKer Proof_Ana Proof_Ana3 Proof_AnaApi.
From Coq Require Import List.
Import ListNotations.
Open Scope R_scope.

(* ------------------------------------------------- integer polynomials *)
Lemma zadd_length a : forall b, length (zadd a b) = Nat.max (length a) (length b).
Proof. induction a as [|x a IH]; intros [|y b]; cbn [zadd length]; try reflexivity. rewrite IH. reflexivity. Qed.
Lemma zscale_length k l : length (zscale k l) = length l.
Proof. apply map_length. Qed.
Lemma zmul_length a b : (length (zmul a b) <= length a + length b)%nat.
Proof.
  induction a as [|x a IH]; cbn [zmul length]; [lia|]. rewrite zadd_length. cbn [length].
  destruct (x =? 0)%Z; cbn [length]; rewrite ?zscale_length; lia.
Qed.
Lemma zabs_zadd a : forall b, (zabs (zadd a b) <= zabs a + zabs b)%Z.
Proof. induction a as [|x a IH]; intros [|y b]; cbn [zadd zabs]; try lia. specialize (IH b). lia. Qed.
Lemma zabs_zscale k l : zabs (zscale k l) = (Z.abs k * zabs l)%Z.
Proof. induction l as [|x l IH]; cbn [zscale map zabs]; [lia|]. fold (zscale k l). rewrite IH, Z.abs_mul. lia. Qed.
Lemma zabs_zmul a b : (zabs (zmul a b) <= zabs a * zabs b)%Z.
Proof.
  induction a as [|x a IH]; cbn [zmul zabs]; [lia|].
  pose proof (zabs_zadd (if (x =? 0)%Z then [] else zscale x b) (0%Z :: zmul a b)) as H. cbn [zabs] in H.
  assert (zabs (if (x =? 0)%Z then [] else zscale x b) <= Z.abs x * zabs b)%Z.
  { destruct (x =? 0)%Z; [cbn [zabs]; pose proof (zabs_ge0 b); lia|]. rewrite zabs_zscale. lia. }
  lia.
Qed.

Lemma poly_zeval l x : poly (map IZR l) x = zeval l x.
Proof.
  unfold poly. rewrite (zeval_from l 0%nat x), map_length.
  assert (H : forall k, combine (seq k (length l)) (map IZR l) = map (fun t => (fst t, IZR (snd t))) (combine (seq k (length l)) l)).
  { induction l as [|a l IH]; intro k; [reflexivity|]. cbn [length seq map combine fst snd]. rewrite IH. reflexivity. }
  rewrite H, suml_map. apply suml_ext. intros [e c] _. cbn [fst snd]. rewrite Nat.sub_0_r. reflexivity.
Qed.
Lemma abs_coeffs l : suml (map IZR l) Rabs = IZR (zabs l).
Proof. induction l as [|a l IH]; cbn [map suml zabs]; [reflexivity|]. rewrite IH, plus_IZR, abs_IZR. reflexivity. Qed.

Definition quad (n : nat) (f : R -> R) : R := suml (code_rule n) (fun t => snd t * f (fst t)).

Lemma gauss_zeval n l : (2 <= n <= 64)%nat -> (length l <= 2 * n)%nat ->
  Rabs (quad n (zeval l) - RInt (zeval l) (-1) 1) <= 1 / 10 ^ 16 * IZR (zabs l).
Proof.
  intros Hn Hl. pose proof (gauss_poly n (map IZR l) Hn ltac:(rewrite map_length; exact Hl)) as H.
  rewrite abs_coeffs in H. unfold quad.
  rewrite (suml_ext _ _ (fun t => snd t * poly (map IZR l) (fst t))) by (intros; rewrite poly_zeval; reflexivity).
  rewrite <- (RInt_ext (poly (map IZR l)) (zeval l)) by (intros; apply poly_zeval). exact H.
Qed.

(* ------------------------------------------------- the first twelve functions *)
Definition gz (p i : nat) : Z * list Z := match p with 0%nat => bz i | 1%nat => bz1 i | _ => bz2 i end.
Definition lit_tab (p : nat) : list lit_entry := match p with 0%nat => lit_f | 1%nat => lit_fp | _ => lit_fpp end.
Definition near_check (p i : nat) : bool :=
  let g := gz p i in
  ((0 <? fst g)%Z && (length (snd g) <=? Nat.max 4 (S i))%nat && (zabs (snd g) <=? 480 * fst g)%Z &&
   (zdot (snd g) (dual (snd g)) <=? 2 * (fst g * fst g * LLv))%Z &&
   match nth_error (lit_tab p) i with Some t => flag_ok i (fst t) && close_check 3 13 g (snd t) | None => false end)%bool.
Lemma near_checked : forallb (fun p => forallb (near_check p) (seq 0 12)) (seq 0 3) = true.
Proof. vm_compute. reflexivity. Qed.

Record good (p i : nat) (c : R -> edge -> R) : Prop := {
  g_pos : (0 < fst (gz p i))%Z;
  g_len : (length (snd (gz p i)) <= Nat.max 4 (S i))%nat;
  g_abs : (zabs (snd (gz p i)) <= 480 * fst (gz p i))%Z;
  g_sq : (zdot (snd (gz p i)) (dual (snd (gz p i))) <= 2 * (fst (gz p i) * fst (gz p i) * LLv))%Z;
  g_near : exists d, (forall x e, c x e = flag e i * d x) /\
    forall x, -1 <= x <= 1 -> Rabs (d x - qeval (gz p i) x) <= 3 / 10 ^ 13 }.

Lemma near_good p i : (i < 12)%nat -> good p i (fun x e => shape code_basis p i x e).
Proof.
  intro Hi. pose proof near_checked as H. rewrite forallb_forall in H.
  assert (Hp : exists p', (p' < 3)%nat /\ gz p i = gz p' i /\ lit_tab p = lit_tab p' /\ forall x e, shape code_basis p i x e = scalar_fun (lit_tab p') i x e).
  { destruct p as [|[|p]]; [exists 0%nat|exists 1%nat|exists 2%nat]; repeat split; try lia; intros; reflexivity. }
  destruct Hp as (p' & Hp' & Eg & El & Es).
  specialize (H p' ltac:(apply in_seq; lia)). rewrite forallb_forall in H. specialize (H i ltac:(apply in_seq; lia)).
  unfold near_check in H. cbv zeta in H. rewrite <- Eg, <- El in H. rewrite !andb_true_iff in H.
  destruct H as [[[[H1 H2] H3] H4] H5].
  apply Z.ltb_lt in H1. apply Nat.leb_le in H2. apply Z.leb_le in H3. apply Z.leb_le in H4.
  destruct (nth_error (lit_tab p) i) as [t|] eqn:Et; [|discriminate]. apply andb_true_iff in H5. destruct H5 as [H5 H6].
  constructor; try assumption. exists (lit_poly (snd t)). split.
  - intros x e. rewrite Es, <- El. unfold scalar_fun. rewrite Et. unfold lit_fun. rewrite (flag_sound _ _ _ H5). reflexivity.
  - intros x Hx. exact (close_sound _ _ _ _ _ H6 Hx).
Qed.

Lemma shape_exact p i x e : (i < 30)%nat -> shape exact_basis p i x e = flag e i * qeval (gz p i) x.
Proof.
  intro Hi. destruct p as [|[|p]]; cbn [shape exact_basis bf bfp bfpp gz].
  - rewrite bardell_qeval by exact Hi. reflexivity.
  - rewrite Derive_bardell by exact Hi. reflexivity.
  - rewrite Derive2_bardell by exact Hi. reflexivity.
Qed.

(* rule against integral for a product of two of them *)
Definition prodv (p i q k : nat) : R :=
  IZR (zdot (snd (gz q k)) (dual (snd (gz p i)))) / IZR LLv / (IZR (fst (gz p i)) * IZR (fst (gz q k))).
Lemma qprod_RInt p i q k c d : good p i c -> good q k d -> (i < 12)%nat -> (k < 12)%nat ->
  is_RInt (fun x => qeval (gz p i) x * qeval (gz q k) x) (-1) 1 (prodv p i q k).
Proof.
  intros Hc Hd Hi Hk. pose proof (g_len _ _ _ Hc). pose proof (g_len _ _ _ Hd).
  assert (P1 : 0 < IZR (fst (gz p i))) by (apply IZR_lt; exact (g_pos _ _ _ Hc)).
  assert (P2 : 0 < IZR (fst (gz q k))) by (apply IZR_lt; exact (g_pos _ _ _ Hd)).
  assert (HI := zdot_RInt (snd (gz p i)) (snd (gz q k)) ltac:(lia) ltac:(lia)).
  apply (is_RInt_scal _ _ _ (/ (IZR (fst (gz p i)) * IZR (fst (gz q k))))) in HI.
  unfold prodv. set (D := IZR (fst (gz p i))) in *. set (D' := IZR (fst (gz q k))) in *. evar_last.
  - eapply is_RInt_ext; [|exact HI]. intros x _. unfold scal; cbn; unfold mult; cbn. unfold qeval. fold D D'. field. lra.
  - unfold scal; cbn; unfold mult; cbn. field. repeat split; try lra. apply not_0_IZR. discriminate.
Qed.

Lemma qprod_quad n p i q k c d : good p i c -> good q k d -> (i < 12)%nat -> (k < 12)%nat ->
  (4 <= n <= 64)%nat -> (S i <= n)%nat -> (S k <= n)%nat ->
  Rabs (quad n (fun x => qeval (gz p i) x * qeval (gz q k) x) - prodv p i q k) <= 2304 / 10 ^ 14.
Proof.
  intros Hc Hd Hi Hk Hn Hin Hkn. pose proof (g_len _ _ _ Hc) as L1. pose proof (g_len _ _ _ Hd) as L2.
  pose proof (qprod_RInt p i q k c d Hc Hd Hi Hk) as HI.
  pose proof (gauss_zeval n (zmul (snd (gz p i)) (snd (gz q k))) ltac:(lia)) as HG.
  specialize (HG ltac:(pose proof (zmul_length (snd (gz p i)) (snd (gz q k))); lia)).
  pose proof (zabs_zmul (snd (gz p i)) (snd (gz q k))) as HA.
  pose proof (g_abs _ _ _ Hc) as A1. pose proof (g_abs _ _ _ Hd) as A2. pose proof (zabs_ge0 (snd (gz p i))) as Z1. pose proof (zabs_ge0 (snd (gz q k))) as Z2.
  pose proof (g_pos _ _ _ Hc) as P1. pose proof (g_pos _ _ _ Hd) as P2.
  assert (HB : (zabs (zmul (snd (gz p i)) (snd (gz q k))) <= 230400 * (fst (gz p i) * fst (gz q k)))%Z).
  { eapply Z.le_trans; [exact HA|]. replace (230400 * (fst (gz p i) * fst (gz q k)))%Z with ((480 * fst (gz p i)) * (480 * fst (gz q k)))%Z by ring.
    apply Z.mul_le_mono_nonneg; assumption. }
  apply IZR_le in HB. rewrite !mult_IZR in HB. apply IZR_lt in P1. apply IZR_lt in P2.
  assert (EI : RInt (zeval (zmul (snd (gz p i)) (snd (gz q k)))) (-1) 1 = IZR (fst (gz p i)) * IZR (fst (gz q k)) * prodv p i q k).
  { apply is_RInt_unique. apply (is_RInt_scal _ _ _ (IZR (fst (gz p i)) * IZR (fst (gz q k)))) in HI.
    eapply is_RInt_ext; [|exact HI]. intros x _. unfold scal; cbn; unfold mult; cbn. rewrite zeval_zmul. unfold qeval. field. lra. }
  rewrite EI in HG. set (D := IZR (fst (gz p i))) in *. set (D' := IZR (fst (gz q k))) in *.
  assert (EQ : quad n (zeval (zmul (snd (gz p i)) (snd (gz q k)))) = D * D' * quad n (fun x => qeval (gz p i) x * qeval (gz q k) x)).
  { unfold quad. rewrite <- suml_scal. apply suml_ext. intros t _. rewrite zeval_zmul. unfold qeval. fold D D'. field. lra. }
  rewrite EQ, <- Rmult_minus_distr_l, Rabs_mult, (Rabs_right (D * D')) in HG by (left; apply Rmult_lt_0_compat; assumption).
  assert (0 < D * D') by (apply Rmult_lt_0_compat; assumption).
  apply (Rmult_le_reg_l (D * D')); [assumption|]. eapply Rle_trans; [exact HG|].
  set (Z := IZR (zabs _)) in *. clearbody Z D D'.
  replace (D * D' * (2304 / 10 ^ 14)) with (1 / 10 ^ 16 * (230400 * (D * D'))) by lra.
  apply Rmult_le_compat_l; [lra|exact HB].
Qed.

Lemma qsq_le2 p i c : good p i c -> (i < 12)%nat -> prodv p i p i <= 2.
Proof.
  intros Hc Hi. pose proof (g_sq _ _ _ Hc) as H. pose proof (g_pos _ _ _ Hc) as P. apply IZR_lt in P. apply IZR_le in H.
  rewrite !mult_IZR in H. unfold prodv. set (D := IZR (fst (gz p i))) in *. set (Z := IZR (zdot _ _)) in *.
  assert (HL : 0 < IZR LLv) by (apply IZR_lt; reflexivity). set (L := IZR LLv) in *. clearbody D Z L.
  assert (0 < D * D) by (apply Rmult_lt_0_compat; assumption).
  assert (0 < D * D * L) by (apply Rmult_lt_0_compat; assumption).
  apply (Rmult_le_reg_r (D * D * L)); [assumption|].
  replace (Z / L / (D * D) * (D * D * L)) with Z by (field; lra). lra.
Qed.

Lemma qprod_abs p i q k c d : good p i c -> good q k d -> (i < 12)%nat -> (k < 12)%nat -> Rabs (prodv p i q k) <= 2.
Proof.
  intros Hc Hd Hi Hk.
  pose proof (qprod_RInt p i q k c d Hc Hd Hi Hk) as H. pose proof (qprod_RInt p i p i c c Hc Hc Hi Hi) as H1.
  pose proof (qprod_RInt q k q k d d Hd Hd Hk Hk) as H2. pose proof (qsq_le2 p i c Hc Hi). pose proof (qsq_le2 q k d Hd Hk).
  set (f := qeval (gz p i)) in *. set (g := qeval (gz q k)) in *.
  pose proof (is_RInt_plus _ _ _ _ _ _ H1 H2) as Hs. apply (is_RInt_scal _ _ _ (/ 2)) in Hs.
  pose proof (is_RInt_opp _ _ _ _ H) as Hm.
  assert (U : prodv p i q k <= / 2 * (prodv p i p i + prodv q k q k)).
  { refine (is_RInt_le _ _ (-1) 1 _ _ ltac:(lra) H Hs _). intros x _. unfold scal, plus; cbn; unfold mult; cbn.
    pose proof (pow2_ge_0 (f x - g x)). nra. }
  assert (V : - prodv p i q k <= / 2 * (prodv p i p i + prodv q k q k)).
  { refine (is_RInt_le _ _ (-1) 1 _ _ ltac:(lra) Hm Hs _). intros x _. unfold scal, plus, opp; cbn; unfold mult; cbn.
    pose proof (pow2_ge_0 (f x + g x)). nra. }
  apply Rabs_le. lra.
Qed.

Lemma quad_le n f g : (2 <= n <= 64)%nat -> (forall x, -1 <= x <= 1 -> f x <= g x) -> quad n f <= quad n g.
Proof.
  intros Hn H. destruct (gauss_nodes n Hn) as (_ & Hw & _). apply suml_le. intros t Ht. destruct (Hw t Ht) as [X W].
  apply Rmult_le_compat_l; [lra|]. apply H. lra.
Qed.
Lemma quad_one n : (2 <= n <= 64)%nat -> quad n (fun _ => 1) <= 21 / 10.
Proof.
  intro Hn. destruct (rule_or_zero n ltac:(lia)) as [H _]. specialize (H Hn). unfold quad.
  apply Rabs_le_between in H. lra.
Qed.

Lemma code_prod n p i q k c d d1 d2 : good p i c -> good q k d -> (i < 12)%nat -> (k < 12)%nat ->
  (4 <= n <= 64)%nat -> (S i <= n)%nat -> (S k <= n)%nat ->
  (forall x, -1 <= x <= 1 -> Rabs (d1 x - qeval (gz p i) x) <= 3 / 10 ^ 13) ->
  (forall x, -1 <= x <= 1 -> Rabs (d2 x - qeval (gz q k) x) <= 3 / 10 ^ 13) ->
  Rabs (quad n (fun x => d1 x * d2 x) - prodv p i q k) <= 245 / 10 ^ 13.
Proof.
  intros Hc Hd Hi Hk Hn Hin Hkn H1 H2.
  pose proof (qprod_quad n p i q k c d Hc Hd Hi Hk Hn Hin Hkn) as A.
  pose proof (qprod_quad n p i p i c c Hc Hc Hi Hi Hn Hin Hin) as B1. pose proof (qprod_quad n q k q k d d Hd Hd Hk Hk Hn Hkn Hkn) as B2.
  pose proof (qsq_le2 p i c Hc Hi) as C1. pose proof (qsq_le2 q k d Hd Hk) as C2. pose proof (quad_one n ltac:(lia)) as O.
  set (f := qeval (gz p i)) in *. set (g := qeval (gz q k)) in *.
  assert (S : Rabs (quad n (fun x => d1 x * d2 x) - quad n (fun x => f x * g x)) <=
              quad n (fun x => 3 / 10 ^ 13 * (1 + (f x * f x + g x * g x) / 2) + 9 / 10 ^ 26)).
  { unfold quad. rewrite <- suml_minus. eapply Rle_trans; [apply suml_abs|].
    destruct (gauss_nodes n ltac:(lia)) as (_ & Hw & _). apply suml_le. intros t Ht. destruct (Hw t Ht) as [X W].
    rewrite <- Rmult_minus_distr_l, Rabs_mult, (Rabs_right (snd t)) by lra. apply Rmult_le_compat_l; [lra|].
    specialize (H1 (fst t) ltac:(lra)). specialize (H2 (fst t) ltac:(lra)).
    set (x := fst t) in *. set (u := d1 x - f x) in *. set (v := d2 x - g x) in *.
    replace (d1 x * d2 x - f x * g x) with (u * g x + f x * v + u * v) by (unfold u, v; ring).
    assert (Eg : forall y, Rabs y <= (1 + y * y) / 2).
    { intro y. pose proof (Rle_0_sqr (1 - y)) as Y1. pose proof (Rle_0_sqr (1 + y)) as Y2. unfold Rsqr in *. unfold Rabs. destruct (Rcase_abs y); lra. }
    pose proof (Eg (f x)) as Ef. specialize (Eg (g x)).
    eapply Rle_trans; [apply Rabs_triang|].
    assert (Rabs (u * v) <= 9 / 10 ^ 26).
    { rewrite Rabs_mult. replace (9 / 10 ^ 26) with (3 / 10 ^ 13 * (3 / 10 ^ 13)) by lra. apply Rmult_le_compat; try apply Rabs_pos; assumption. }
    assert (Rabs (u * g x) <= 3 / 10 ^ 13 * ((1 + g x * g x) / 2)).
    { rewrite Rabs_mult. apply Rmult_le_compat; try apply Rabs_pos; assumption. }
    assert (Rabs (f x * v) <= 3 / 10 ^ 13 * ((1 + f x * f x) / 2)).
    { rewrite Rabs_mult, Rmult_comm. apply Rmult_le_compat; try apply Rabs_pos; assumption. }
    pose proof (Rabs_triang (u * g x) (f x * v)). lra. }
  assert (E : quad n (fun x => 3 / 10 ^ 13 * (1 + (f x * f x + g x * g x) / 2) + 9 / 10 ^ 26) =
    (3 / 10 ^ 13 + 9 / 10 ^ 26) * quad n (fun _ => 1) + 3 / 10 ^ 13 / 2 * (quad n (fun x => f x * f x) + quad n (fun x => g x * g x))).
  { unfold quad. rewrite <- suml_plus, <- !suml_scal, <- suml_plus. apply suml_ext. intros t _. lra. }
  rewrite E in S. apply Rabs_le_between in A. apply Rabs_le_between in B1. apply Rabs_le_between in B2. apply Rabs_le_between in S. apply Rabs_le.
  set (Q := quad n (fun x => d1 x * d2 x)) in *. set (Qf := quad n (fun x => f x * g x)) in *.
  set (a := quad n (fun x => f x * f x)) in *. set (b := quad n (fun x => g x * g x)) in *. set (o := quad n (fun _ => 1)) in *.
  clearbody Q Qf a b o. lra.
Qed.

Theorem near_1d n p q i k e e' : (i < 12)%nat -> (k < 12)%nat -> (4 <= n <= 64)%nat -> (S i <= n)%nat -> (S k <= n)%nat ->
  Rabs (flag e i) <= 1 -> Rabs (flag e' k) <= 1 ->
  Rabs (rule_1d code_rule n code_basis p q i k e e' - tab code_tables p q i k e e') <= 25 / 10 ^ 12 /\
  Rabs (tab code_tables p q i k e e') <= 201 / 100.
Proof.
  intros Hi Hk Hn Hin Hkn Fe Fe'.
  pose proof (near_good p i Hi) as Gp. pose proof (near_good q k Hk) as Gq.
  destruct (g_near _ _ _ Gp) as (d1 & E1 & N1). destruct (g_near _ _ _ Gq) as (d2 & E2 & N2).
  pose proof (code_prod n p i q k _ _ d1 d2 Gp Gq Hi Hk Hn Hin Hkn N1 N2) as H.
  pose proof (qprod_abs p i q k _ _ Gp Gq Hi Hk) as HB.
  assert (ER : rule_1d code_rule n code_basis p q i k e e' = flag e i * flag e' k * quad n (fun x => d1 x * d2 x)).
  { unfold rule_1d, quad. rewrite <- suml_scal. apply suml_ext. intros t _. rewrite E1, E2. ring. }
  assert (EX : tab exact_tables p q i k e e' = flag e i * flag e' k * prodv p i q k).
  { pose proof (tab_integrates _ _ _ (exact_tables_integrate 12 ltac:(lia)) p q i k e e' Hi Hk) as HI.
    rewrite <- (@is_RInt_unique R_CompleteNormedModule _ _ _ _ HI). apply (@is_RInt_unique R_CompleteNormedModule).
    pose proof (is_RInt_scal _ _ _ (flag e i * flag e' k) _ (qprod_RInt p i q k _ _ Gp Gq Hi Hk)) as HS.
    eapply is_RInt_ext; [|exact HS]. intros x _. rewrite !shape_exact by lia. unfold scal; cbn; unfold mult; cbn. ring. }
  pose proof (code_one_d_close 12 ltac:(lia) p q i k e e' Hi Hk) as HT. rewrite EX in HT. rewrite ER.
  set (F := flag e i * flag e' k) in *. assert (HF : Rabs F <= 1).
  { unfold F. rewrite Rabs_mult. rewrite <- (Rmult_1_l 1). apply Rmult_le_compat; try apply Rabs_pos; assumption. }
  set (P := prodv p i q k) in *. set (Q := quad n _) in *. set (T := tab code_tables p q i k e e') in *.
  assert (HFP : Rabs (F * P) <= 2).
  { rewrite Rabs_mult. replace 2 with (1 * 2) by ring. apply Rmult_le_compat; try apply Rabs_pos; assumption. }
  assert (HFQ : Rabs (F * Q - F * P) <= 245 / 10 ^ 13).
  { rewrite <- Rmult_minus_distr_l, Rabs_mult. rewrite <- (Rmult_1_l (245 / 10 ^ 13)). apply Rmult_le_compat; try apply Rabs_pos; assumption. }
  set (X := F * P) in *. set (Y := F * Q) in *. clearbody X Y T. clear - HT HFP HFQ.
  split; unfold Rabs in *; repeat destruct (Rcase_abs _); lra.
Qed.
