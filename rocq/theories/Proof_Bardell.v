(* The stored shape-function tables against the exact Bardell functions. *)
From Coq Require Import Reals ZArith List Arith Bool Lia Lra.
From Coquelicot Require Import Coquelicot.
From Verif Require Import Base_Sum Data_Bardell Model_Types Model_Bardell Spec_Bardell Proof_Poly.
Import ListNotations.
Open Scope R_scope.

(* ------------------------------------------------- exact functions as integer polynomials *)
Definition mono (e : nat) (z : Z) : list Z := repeat 0%Z e ++ [z].
Fixpoint zsum (n : nat) (f : nat -> list Z) : list Z :=
  match n with O => [] | S k => zadd (zsum k f) (f k) end.

Lemma zeval_mono e z x : zeval (mono e z) x = IZR z * x ^ e.
Proof.
  unfold mono. induction e as [|e IH]; cbn [repeat app zeval pow]; [ring|]. rewrite IH. ring.
Qed.
Lemma zeval_zsum n f x : zeval (zsum n f) x = sumn n (fun k => zeval (f k) x).
Proof. induction n as [|n IH]; cbn [zsum sumn zeval]; [reflexivity|]. rewrite zeval_zadd, IH. reflexivity. Qed.

Fixpoint zfact (n : nat) : Z := match n with O => 1%Z | S k => (Z.of_nat n * zfact k)%Z end.
Fixpoint zodd (n : nat) : Z := match n with O => 1%Z | S k => ((2 * Z.of_nat k + 1) * zodd k)%Z end.

Lemma fact_IZR n : INR (fact n) = IZR (zfact n).
Proof.
  induction n as [|n IH]; [reflexivity|]. cbn [fact zfact]. rewrite mult_IZR, <- IH, <- INR_IZR_INZ, <- mult_INR.
  f_equal.
Qed.
Lemma odd_IZR n : INR (odd_fact n) = IZR (zodd n).
Proof.
  induction n as [|n IH]; [reflexivity|]. cbn [odd_fact zodd].
  rewrite mult_INR, mult_IZR, <- IH. f_equal. rewrite INR_IZR_INZ. f_equal. lia.
Qed.
Lemma zfact_pos n : (0 < zfact n)%Z.
Proof. induction n as [|n IH]; cbn [zfact]; lia. Qed.

Definition cnum (i n : nat) : Z := ((-1) ^ Z.of_nat n * zodd (i - n - 2))%Z.
Definition cden (i n : nat) : Z := (2 ^ Z.of_nat n * zfact n * zfact (i - 2 * n))%Z.
Definition cscale (i : nat) : Z :=
  fold_right (fun n s => Z.lcm (cden i n / Z.gcd (cnum i n) (cden i n)) s) 1%Z (seq 0 (S (i / 2))).

(* denominator and integer coefficients *)
Definition bz (i : nat) : Z * list Z :=
  match i with
  | 0%nat => (4, [2; -3; 0; 1])
  | 1%nat => (8, [1; -1; -1; 1])
  | 2%nat => (4, [2; 3; 0; -1])
  | 3%nat => (8, [-1; -1; 1; 1])
  | _ => let D := cscale i in
         (D, zsum (S (i / 2)) (fun n => mono (i - 2 * n) (cnum i n * D / cden i n)))
  end%Z.

Definition bz_check (i : nat) : bool :=
  ((0 <? fst (bz i)) && ((i <? 4)%nat || forallb (fun n => cnum i n * cscale i / cden i n * cden i n =? cnum i n * cscale i) (seq 0 (S (i / 2)))))%bool%Z.
Lemma bz_checked : forallb bz_check (seq 0 30) = true.
Proof. vm_compute. reflexivity. Qed.

Lemma cden_pos i n : (0 < cden i n)%Z.
Proof.
  unfold cden. pose proof (zfact_pos n). pose proof (zfact_pos (i - 2 * n)).
  assert (0 < 2 ^ Z.of_nat n)%Z by (apply Z.pow_pos_nonneg; lia). repeat apply Z.mul_pos_pos; assumption.
Qed.

Lemma bardell_bz i x : (i < 30)%nat -> (0 < fst (bz i))%Z /\ bardell i x = zeval (snd (bz i)) x / IZR (fst (bz i)).
Proof.
  intro Hi. pose proof bz_checked as Hc. rewrite forallb_forall in Hc.
  specialize (Hc i ltac:(apply in_seq; lia)). unfold bz_check in Hc. apply andb_true_iff in Hc. destruct Hc as [Hp Hc].
  apply Z.ltb_lt in Hp. split; [exact Hp|].
  do 4 (destruct i as [|i]; [cbn [bardell bz fst snd zeval]; field|]).
  assert (Hn : (S (S (S (S i))) <? 4)%nat = false) by (apply Nat.ltb_ge; lia). rewrite Hn in Hc. cbn [orb] in Hc. clear Hn.
  unfold bardell. set (k := S (S (S (S i)))) in *. change (bz k) with (cscale k, zsum (S (k / 2)) (fun n => mono (k - 2 * n) (cnum k n * cscale k / cden k n))) in *.
  cbn [fst snd] in *. rewrite zeval_zsum. unfold Rdiv at 2. rewrite <- sumn_scal_r. apply sumn_ext. intros n Hnn.
  rewrite zeval_mono. rewrite forallb_forall in Hc. specialize (Hc n ltac:(apply in_seq; lia)). apply Z.eqb_eq in Hc.
  rewrite !fact_IZR, odd_IZR. rewrite (pow_IZR 2). rewrite <- !mult_IZR.
  replace ((-1) ^ n * IZR (zodd (k - n - 2))) with (IZR (cnum k n)) by (unfold cnum; rewrite mult_IZR, <- pow_IZR; reflexivity).
  fold (cden k n). pose proof (cden_pos k n) as Hd.
  assert (IZR (cden k n) <> 0) by (apply not_0_IZR; lia). assert (IZR (cscale k) <> 0) by (apply not_0_IZR; lia).
  apply (f_equal IZR) in Hc. rewrite !mult_IZR in Hc.
  replace (IZR (cnum k n)) with (IZR (cnum k n * cscale k / cden k n) * IZR (cden k n) / IZR (cscale k)).
  - field. split; assumption.
  - rewrite Hc. field. assumption.
Qed.

(* derivatives *)
Definition bz1 i := (fst (bz i), zderiv (snd (bz i))).
Definition bz2 i := (fst (bz i), zderiv (zderiv (snd (bz i)))).
Definition qeval (p : Z * list Z) (x : R) : R := zeval (snd p) x / IZR (fst p).

Lemma qeval_derive D l x : is_derive (qeval (D, l)) x (qeval (D, zderiv l) x).
Proof.
  unfold qeval, Rdiv; cbn [fst snd]. apply (is_derive_ext (fun x => / IZR D * zeval l x)); [intros; apply Rmult_comm|].
  rewrite Rmult_comm. apply (is_derive_scal (zeval l) x (/ IZR D)). apply zeval_derive.
Qed.
Lemma bardell_qeval i : (i < 30)%nat -> forall x, bardell i x = qeval (bz i) x.
Proof. intros Hi x. apply bardell_bz. exact Hi. Qed.
Lemma bardell_derive i x : (i < 30)%nat -> is_derive (bardell i) x (qeval (bz1 i) x).
Proof.
  intro Hi. apply (is_derive_ext (qeval (bz i))); [intro; symmetry; apply bardell_qeval; exact Hi|].
  unfold bz1. destruct (bz i) as [D l]. apply qeval_derive.
Qed.
Lemma Derive_bardell i x : (i < 30)%nat -> Derive (bardell i) x = qeval (bz1 i) x.
Proof. intro Hi. apply is_derive_unique. apply bardell_derive. exact Hi. Qed.
Lemma Derive2_bardell i x : (i < 30)%nat -> Derive_n (bardell i) 2 x = qeval (bz2 i) x.
Proof.
  intro Hi. cbn [Derive_n]. rewrite (Derive_ext _ (qeval (bz1 i))) by (intro; apply Derive_bardell; exact Hi).
  apply is_derive_unique. unfold bz1, bz2. apply (qeval_derive (fst (bz i)) (zderiv (snd (bz i)))).
Qed.

(* ------------------------------------------------- stored polynomials *)
Definition SC : nat := 40.

Definition zterms (l : list (nat * (Z * nat))) : list Z :=
  fold_right (fun t s => zadd (mono (fst t) (fst (snd t) * tenZ (SC - snd (snd t)))) s) [] l.
Definition decimals_ok (l : list (nat * (Z * nat))) : bool := forallb (fun t => (snd (snd t) <=? SC)%nat) l.

Lemma lit_poly_z l x : decimals_ok l = true -> lit_poly l x = zeval (zterms l) x / 10 ^ SC.
Proof.
  unfold lit_poly, decimals_ok. induction l as [|[e [m d]] l IH]; cbn [forallb suml zterms fold_right fst snd]; intro H.
  - cbn [zeval]. unfold Rdiv. ring.
  - apply andb_true_iff in H. destruct H as [Hd H]. apply Nat.leb_le in Hd.
    rewrite zeval_zadd, zeval_mono, mult_IZR, tenZ_IZR. fold (zterms l). rewrite IH by exact H.
    unfold lit_val; cbn [fst snd]. replace (10 ^ SC) with (10 ^ d * 10 ^ (SC - d)) by (rewrite <- pow_add; f_equal; lia).
    field. split; apply ten_neq.
Qed.

(* distance between a stored polynomial and an exact one: at most k / 10^dec on [-1, 1] *)
Definition close_check (k : Z) (dec : nat) (p : Z * list Z) (l : list (nat * (Z * nat))) : bool :=
  (decimals_ok l && (0 <? fst p)%Z &&
   (zabs (zadd (zscale (fst p) (zterms l)) (zscale (- tenZ SC) (snd p))) * tenZ dec <=? k * fst p * tenZ SC)%Z)%bool.

Lemma close_sound k dec p l x : close_check k dec p l = true -> -1 <= x <= 1 ->
  Rabs (lit_poly l x - qeval p x) <= IZR k / 10 ^ dec.
Proof.
  unfold close_check. rewrite !andb_true_iff, Z.ltb_lt, Z.leb_le. intros [[Hd Hp] Hz] Hx.
  rewrite (lit_poly_z _ _ Hd). unfold qeval. destruct p as [D b]; cbn [fst snd] in *.
  set (zz := zadd _ _) in Hz. assert (HD : 0 < IZR D) by (apply IZR_lt; exact Hp).
  assert (HT : 0 < (10:R) ^ SC) by (apply pow_lt; lra). assert (Ht : 0 < (10:R) ^ dec) by (apply pow_lt; lra).
  replace (zeval (zterms l) x / 10 ^ SC - zeval b x / IZR D) with (zeval zz x / (IZR D * 10 ^ SC)).
  2:{ unfold zz. rewrite zeval_zadd, !zeval_zscale, opp_IZR, tenZ_IZR. field. split; lra. }
  apply IZR_le in Hz. rewrite !mult_IZR, !tenZ_IZR in Hz. pose proof (zeval_bound zz x Hx) as Hb.
  unfold Rdiv at 1. rewrite Rabs_mult, (Rabs_right (/ _)) by (left; apply Rinv_0_lt_compat; apply Rmult_lt_0_compat; assumption).
  apply (Rmult_le_reg_r (IZR D * 10 ^ SC * 10 ^ dec)); [apply Rmult_lt_0_compat; [apply Rmult_lt_0_compat|]; assumption|].
  replace (Rabs (zeval zz x) * / (IZR D * 10 ^ SC) * (IZR D * 10 ^ SC * 10 ^ dec)) with (Rabs (zeval zz x) * 10 ^ dec) by (field; split; lra).
  replace (IZR k / 10 ^ dec * (IZR D * 10 ^ SC * 10 ^ dec)) with (IZR k * IZR D * 10 ^ SC) by (field; lra).
  eapply Rle_trans; [|exact Hz]. apply Rmult_le_compat_r; [lra|exact Hb].
Qed.

Definition flag_ok (i : nat) (fl : option nat) : bool :=
  match fl with Some k => (i <? 4)%nat && (k =? i)%nat | None => negb (i <? 4)%nat end.
Lemma flag_sound i fl e : flag_ok i fl = true -> flag_val e fl = flag e i.
Proof.
  destruct fl as [k|]; cbn [flag_ok].
  - rewrite andb_true_iff, Nat.ltb_lt, Nat.eqb_eq. intros [Hi ->]. do 4 (destruct i as [|i]; [reflexivity|]). lia.
  - rewrite negb_true_iff, Nat.ltb_ge. intro H. do 4 (destruct i as [|i]; [lia|]). reflexivity.
Qed.

(* whole tables: bound k / 10^dec for i >= 4 and equality for the four boundary functions *)
Definition table_check (k : Z) (dec : nat) (poly : nat -> Z * list Z) (tab : list lit_entry) : bool :=
  ((length tab =? 30)%nat && forallb (fun it => flag_ok (fst it) (fst (snd it)) &&
     close_check (if (fst it <? 4)%nat then 0 else k) dec (poly (fst it)) (snd (snd it))) (combine (seq 0 30) tab))%bool.

Lemma table_f : table_check 4 9 bz lit_f = true.
Proof. vm_compute. reflexivity. Qed.
Lemma table_fp : table_check 2 7 bz1 lit_fp = true.
Proof. vm_compute. reflexivity. Qed.
Lemma table_fpp : table_check 1 6 bz2 lit_fpp = true.
Proof. vm_compute. reflexivity. Qed.

Lemma nth_combine_seq {A} (l : list A) i a n : nth_error l i = Some a -> (length l <= n)%nat -> In (i, a) (combine (seq 0 n) l).
Proof.
  intros H Hn. apply (nth_error_In _ i).
  assert (Hg : forall (l : list A) s i a n, nth_error l i = Some a -> (length l <= n)%nat -> nth_error (combine (seq s n) l) i = Some ((s + i)%nat, a)).
  { clear. induction l as [|b l IH]; intros s [|i] a n H Hn; cbn in *; try discriminate.
    - destruct n; [lia|]. cbn. injection H as ->. rewrite Nat.add_0_r. reflexivity.
    - destruct n; [lia|]. cbn. rewrite (IH (S s) i a n H ltac:(lia)). f_equal. f_equal. lia. }
  rewrite (Hg l 0%nat i a n H Hn). reflexivity.
Qed.

Lemma table_sound k dec poly tab i x e : table_check k dec poly tab = true -> (i < 30)%nat -> -1 <= x <= 1 -> 
  exists t, nth_error tab i = Some t /\ scalar_fun tab i x e = flag e i * lit_poly (snd t) x /\
  Rabs (lit_poly (snd t) x - qeval (poly i) x) <= (if (i <? 4)%nat then 0 else IZR k / 10 ^ dec).
Proof.
  unfold table_check. rewrite andb_true_iff, Nat.eqb_eq, forallb_forall. intros [HL H] Hi Hx.
  destruct (nth_error tab i) as [t|] eqn:E; [|apply nth_error_None in E; lia].
  exists t. split; [reflexivity|].
  specialize (H _ (nth_combine_seq tab i t 30 E ltac:(lia))). cbn [fst snd] in H.
  apply andb_true_iff in H. destruct H as [Hf Hc].
  unfold scalar_fun. rewrite E. unfold lit_fun. rewrite (flag_sound _ _ _ Hf). split; [reflexivity|].
  eapply Rle_trans; [exact (close_sound _ _ _ _ _ Hc Hx)|].
  destruct (i <? 4)%nat; [|lra]. unfold Rdiv. lra.
Qed.

Lemma table_bound k dec poly tab i x e : table_check k dec poly tab = true -> (i < 30)%nat -> -1 <= x <= 1 -> 
  Rabs (scalar_fun tab i x e - flag e i * qeval (poly i) x) <= (if (i <? 4)%nat then 0 else IZR k / 10 ^ dec).
Proof.
  intros H Hi Hx. destruct (table_sound _ _ _ _ i x e H Hi Hx) as (t & _ & -> & Hb).
  replace (flag e i * lit_poly (snd t) x - flag e i * qeval (poly i) x) with (flag e i * (lit_poly (snd t) x - qeval (poly i) x)) by ring.
  rewrite Rabs_mult. destruct (Nat.ltb_spec i 4) as [H4|H4].
  - replace (Rabs (lit_poly (snd t) x - qeval (poly i) x)) with 0; [lra|]. pose proof (Rabs_pos (lit_poly (snd t) x - qeval (poly i) x)). lra.
  - do 4 (destruct i as [|i]; [lia|]). cbn [flag]. rewrite Rabs_R1. lra.
Qed.

Theorem code_f_close i x e : (i < 30)%nat -> -1 <= x <= 1 ->
  Rabs (code_f i x e - bf exact_basis i x e) <= (if (i <? 4)%nat then 0 else 4 / 10 ^ 9).
Proof.
  intros Hi Hx. cbn [bf exact_basis]. rewrite (bardell_qeval i Hi). exact (table_bound _ _ _ _ i x e table_f Hi Hx).
Qed.
Theorem code_fp_close i x e : (i < 30)%nat -> -1 <= x <= 1 ->
  Rabs (code_fp i x e - bfp exact_basis i x e) <= (if (i <? 4)%nat then 0 else 2 / 10 ^ 7).
Proof.
  intros Hi Hx. cbn [bfp exact_basis]. rewrite (Derive_bardell i x Hi). exact (table_bound _ _ _ _ i x e table_fp Hi Hx).
Qed.
Theorem code_fpp_close i x e : (i < 30)%nat -> -1 <= x <= 1 ->
  Rabs (code_fpp i x e - bfpp exact_basis i x e) <= (if (i <? 4)%nat then 0 else 1 / 10 ^ 6).
Proof.
  intros Hi Hx. cbn [bfpp exact_basis]. rewrite (Derive2_bardell i x Hi). exact (table_bound _ _ _ _ i x e table_fpp Hi Hx).
Qed.

(* ------------------------------------------------- vector routines *)
Lemma vec_tables : vec_f = lit_f /\ vec_fp = lit_fp /\ vec_fpp = lit_fpp.
Proof. repeat split; vm_compute; reflexivity. Qed.
Lemma vec_lengths : length vec_f = 30%nat /\ length vec_fp = 30%nat /\ length vec_fpp = 30%nat.
Proof. repeat split. Qed.

Lemma vector_is_scalar tab i x e d : (length tab <= 30)%nat ->
  (i < length tab -> nth i (vector_fun tab x e) d = scalar_fun tab i x e)%nat /\
  ((length tab <= i)%nat -> scalar_fun tab i x e = 0).
Proof.
  intros HL. split; intro Hi; unfold scalar_fun.
  - unfold vector_fun. destruct (nth_error tab i) as [t|] eqn:E; [|apply nth_error_None in E; lia].
    apply nth_error_nth. apply (map_nth_error (fun t => lit_fun t x e)). exact E.
  - apply nth_error_None in Hi. rewrite Hi. reflexivity.
Qed.

(* ------------------------------------------------- stored coefficients *)
(* the exact coefficients for the exponents that are stored *)
Definition exact_terms (p : Z * list Z) (l : list (nat * (Z * nat))) : list (nat * R) :=
  map (fun t => (fst t, IZR (nth (fst t) (snd p) 0%Z) / IZR (fst p))) l.
Definition zterms_exact (p : Z * list Z) (l : list (nat * (Z * nat))) : list Z :=
  fold_right (fun t s => zadd (mono (fst t) (nth (fst t) (snd p) 0%Z)) s) [] l.
Fixpoint nodupb (l : list nat) : bool :=
  match l with [] => true | a :: t => negb (existsb (Nat.eqb a) t) && nodupb t end.
Lemma nodupb_sound l : nodupb l = true -> NoDup l.
Proof.
  induction l as [|a l IH]; cbn [nodupb]; intro H; constructor; apply andb_true_iff in H; destruct H as [H1 H2].
  - intro Hin. apply negb_true_iff in H1. apply Bool.not_true_iff_false in H1. apply H1. apply existsb_exists.
    exists a. split; [exact Hin|apply Nat.eqb_refl].
  - apply IH. exact H2.
Qed.

Definition coef_check (p : Z * list Z) (l : list (nat * (Z * nat))) : bool :=
  ((0 <? fst p)%Z && nodupb (map fst l) &&
   (zabs (zadd (zterms_exact p l) (zscale (-1) (snd p))) =? 0)%Z &&
   forallb (fun t => let z := nth (fst t) (snd p) 0%Z in
     (Z.abs (fst (snd t) * fst p - z * tenZ (snd (snd t))) * tenZ 15 <=? 5 * Z.abs z * tenZ (snd (snd t)))%Z) l)%bool.

Lemma zabs0 l x : zabs l = 0%Z -> zeval l x = 0.
Proof.
  induction l as [|a l IH]; cbn [zabs zeval]; [reflexivity|]. intro H. pose proof (zabs_ge0 l).
  rewrite IH by lia. replace a with 0%Z by lia. ring.
Qed.

Lemma coef_sound p l : coef_check p l = true ->
  NoDup (map fst l) /\ map fst (exact_terms p l) = map fst l /\
  (forall x, qeval p x = suml (exact_terms p l) (fun t => snd t * x ^ fst t)) /\
  Forall2 (fun t q => Rabs (lit_val (snd t) - snd q) <= 5 / 10 ^ 15 * Rabs (snd q)) l (exact_terms p l).
Proof.
  unfold coef_check. rewrite !andb_true_iff, Z.ltb_lt, Z.eqb_eq. intros [[[Hp Hn] Hz] Hl].
  assert (HD : 0 < IZR (fst p)) by (apply IZR_lt; exact Hp).
  split; [apply nodupb_sound; exact Hn|]. split; [unfold exact_terms; rewrite map_map; reflexivity|]. split.
  - intro x. pose proof (zabs0 _ x Hz) as H0. rewrite zeval_zadd, zeval_zscale in H0. unfold qeval.
    replace (zeval (snd p) x) with (zeval (zterms_exact p l) x) by lra. clear.
    unfold exact_terms. induction l as [|t l IH]; cbn [zterms_exact fold_right map suml zeval fst snd]; [unfold Rdiv; ring|].
    rewrite zeval_zadd, zeval_mono. fold (zterms_exact p l). rewrite <- IH. unfold Rdiv. ring.
  - unfold exact_terms. clear Hz Hn. induction l as [|[e [m d]] l IH]; cbn [map]; constructor.
    + cbn [forallb] in Hl. apply andb_true_iff in Hl. destruct Hl as [Hl _]. cbn [fst snd] in *. apply Z.leb_le in Hl.
      apply IZR_le in Hl. rewrite !mult_IZR, !abs_IZR, minus_IZR, !mult_IZR, !tenZ_IZR in Hl.
      unfold lit_val; cbn [fst snd]. set (z := IZR (nth e (snd p) 0%Z)) in *. set (D := IZR (fst p)) in *.
      assert (Ht : 0 < (10:R) ^ d) by (apply pow_lt; lra). assert (HT : 0 < (10:R) ^ 15) by (apply pow_lt; lra).
      replace (IZR m / 10 ^ d - z / D) with ((IZR m * D - z * 10 ^ d) / (D * 10 ^ d)) by (field; lra).
      unfold Rdiv. rewrite !Rabs_mult, (Rabs_right (/ (D * 10 ^ d))), (Rabs_right (/ D)); try (left; apply Rinv_0_lt_compat; try apply Rmult_lt_0_compat; lra).
      apply (Rmult_le_reg_r (D * 10 ^ d * 10 ^ 15)); [apply Rmult_lt_0_compat; [apply Rmult_lt_0_compat|]; lra|].
      replace (Rabs (IZR m * D - z * 10 ^ d) * / (D * 10 ^ d) * (D * 10 ^ d * 10 ^ 15)) with (Rabs (IZR m * D - z * 10 ^ d) * 10 ^ 15) by (field; lra).
      replace (5 * / 10 ^ 15 * (Rabs z * / D) * (D * 10 ^ d * 10 ^ 15)) with (5 * Rabs z * 10 ^ d) by (field; lra).
      exact Hl.
    + apply IH. cbn [forallb] in Hl. apply andb_true_iff in Hl. apply Hl.
Qed.

Definition coefs_check (poly : nat -> Z * list Z) (tab : list lit_entry) : bool :=
  forallb (fun it => coef_check (poly (fst it)) (snd (snd it))) (combine (seq 0 30) tab).
Lemma coefs_checked : coefs_check bz lit_f = true /\ coefs_check bz1 lit_fp = true /\ coefs_check bz2 lit_fpp = true.
Proof. repeat split; vm_compute; reflexivity. Qed.

Lemma coefs_sound poly tab (g : nat -> R -> R) i : coefs_check poly tab = true -> (length tab = 30)%nat -> (i < 30)%nat ->
  (forall x, g i x = qeval (poly i) x) ->
  exists t q, nth_error tab i = Some t /\ NoDup (map fst (snd t)) /\ map fst q = map fst (snd t) /\
  (forall x, g i x = suml q (fun u => snd u * x ^ fst u)) /\
  Forall2 (fun s u => Rabs (lit_val (snd s) - snd u) <= 5 / 10 ^ 15 * Rabs (snd u)) (snd t) q.
Proof.
  intros H HL Hi Hg. destruct (nth_error tab i) as [t|] eqn:E; [|apply nth_error_None in E; lia].
  unfold coefs_check in H. rewrite forallb_forall in H. specialize (H _ (nth_combine_seq tab i t 30 E ltac:(lia))). cbn [fst snd] in H.
  apply coef_sound in H. destruct H as (H1 & H2 & H3 & H4).
  exists t, (exact_terms (poly i) (snd t)). repeat split; try assumption. intro x. rewrite Hg. apply H3.
Qed.

(* ------------------------------------------------- boundary values of the exact functions *)
Definition ends_check (i : nat) : bool :=
  let at1 l := fold_right Z.add 0%Z l in
  let at0 l := fold_right (fun a s => (a - s)%Z) 0%Z l in
  let v l := (at0 l, at1 l) in
  let D := fst (bz i) in
  let eqp p q := ((fst p =? fst q) && (snd p =? snd q))%Z%bool in
  let '(f, g) := match i with
    | 0%nat => ((D, 0), (0, 0)) | 1%nat => ((0, 0), (D, 0)) | 2%nat => ((0, D), (0, 0)) | 3%nat => ((0, 0), (0, D)) | _ => ((0, 0), (0, 0)) end%Z in
  (eqp (v (snd (bz i))) f && eqp (2 * fst (v (snd (bz1 i))), 2 * snd (v (snd (bz1 i))))%Z g)%bool.
Lemma ends_checked : forallb ends_check (seq 0 30) = true.
Proof. vm_compute. reflexivity. Qed.
Lemma zeval_1 l : zeval l 1 = IZR (fold_right Z.add 0%Z l).
Proof. induction l as [|a l IH]; cbn [zeval fold_right]; [reflexivity|]. rewrite IH, plus_IZR. ring. Qed.
Lemma zeval_m1 l : zeval l (-1) = IZR (fold_right (fun a s => (a - s)%Z) 0%Z l).
Proof. induction l as [|a l IH]; cbn [zeval fold_right]; [reflexivity|]. rewrite IH, minus_IZR. ring. Qed.

Theorem bardell_ends i : (i < 30)%nat ->
  bardell i (-1) = (if (i =? 0)%nat then 1 else 0) /\
  bardell i 1 = (if (i =? 2)%nat then 1 else 0) /\
  Derive (bardell i) (-1) = (if (i =? 1)%nat then 1/2 else 0) /\
  Derive (bardell i) 1 = (if (i =? 3)%nat then 1/2 else 0).
Proof.
  intro Hi. rewrite !Derive_bardell, !bardell_qeval by exact Hi.
  pose proof ends_checked as H. rewrite forallb_forall in H. specialize (H i ltac:(apply in_seq; lia)).
  destruct (bardell_bz i 0 Hi) as [HD _]. assert (HDR : IZR (fst (bz i)) <> 0) by (apply not_0_IZR; lia).
  unfold ends_check in H. unfold qeval, bz1 in *. cbn [fst snd] in *. rewrite !zeval_1, !zeval_m1.
  set (D := fst (bz i)) in *. set (A := fold_right (fun a s => (a - s)%Z) 0%Z (snd (bz i))) in *.
  set (B := fold_right Z.add 0%Z (snd (bz i))) in *. set (A' := fold_right (fun a s => (a - s)%Z) 0%Z (zderiv (snd (bz i)))) in *.
  set (B' := fold_right Z.add 0%Z (zderiv (snd (bz i)))) in *. clearbody A B A' B' D.
  assert (Hh : forall a b, (2 * a)%Z = b -> IZR a = IZR b / 2) by (intros a b <-; rewrite mult_IZR; field).
  do 4 (destruct i as [|i]; [cbn [fst snd Nat.eqb] in *; rewrite !andb_true_iff, !Z.eqb_eq in H; destruct H as [[H1 H2] [H3 H4]];
    rewrite H1, H2, (Hh _ _ H3), (Hh _ _ H4); repeat split; field; exact HDR|]).
  cbn [fst snd Nat.eqb] in *; rewrite !andb_true_iff, !Z.eqb_eq in H; destruct H as [[H1 H2] [H3 H4]];
    rewrite H1, H2, (Hh _ _ H3), (Hh _ _ H4); repeat split; field; exact HDR.
Qed.

(* ------------------------------------------------- second derivatives are Legendre polynomials *)
(* legendre n = zeval / 2^n; recurrence over integers scaled by n! 2^n avoided: scale (n+1) at each step *)
Fixpoint lz (n : nat) : (Z * list Z) * (Z * list Z) :=
  match n with
  | O => ((1, [1]), (1, [0; 1]))%Z
  | S k => let '((Da, a), (Db, b)) := lz k in let N := Z.of_nat n in
     let D := (Da * Db * (N + 1))%Z in
     let l := zadd (zscale ((2 * N + 1) * Da) (0%Z :: b)) (zscale (- N * Db) a) in
     let g := fold_right Z.gcd D l in
     ((Db, b), (D / g, map (fun z => z / g) l))%Z
  end.
Definition lz_step (n : nat) : bool :=
  match n with O => true | S k => let '((Da, a), (Db, b)) := lz k in let N := Z.of_nat n in
     let D := (Da * Db * (N + 1))%Z in
     let l := zadd (zscale ((2 * N + 1) * Da) (0%Z :: b)) (zscale (- N * Db) a) in
     let g := fold_right Z.gcd D l in
     ((0 <? D) && (0 <? g) && (D / g * g =? D) && forallb (fun z => z / g * g =? z) l)%Z%bool end.
Lemma lz_steps : forallb lz_step (seq 0 28) = true.
Proof. vm_compute. reflexivity. Qed.

Lemma div_list g l x : forallb (fun z => (z / g * g =? z)%Z) l = true -> zeval l x = IZR g * zeval (map (fun z => (z / g)%Z) l) x.
Proof.
  induction l as [|a l IH]; cbn [forallb map zeval]; intro H; [ring|].
  apply andb_true_iff in H. destruct H as [H1 H2]. apply Z.eqb_eq in H1. rewrite (IH H2), <- H1 at 1. rewrite mult_IZR. ring.
Qed.
Lemma legendre_lz n x : (n < 28)%nat ->
  fst (legendre_pair n x) = qeval (fst (lz n)) x /\ snd (legendre_pair n x) = qeval (snd (lz n)) x /\
  (0 < fst (fst (lz n)))%Z /\ (0 < fst (snd (lz n)))%Z.
Proof.
  induction n as [|n IH]; intro Hn.
  - cbn. unfold qeval; cbn. repeat split; lia || field.
  - destruct (IH ltac:(lia)) as (IH1 & IH2 & IH3 & IH4). clear IH.
    pose proof lz_steps as Hs. rewrite forallb_forall in Hs. specialize (Hs (S n) ltac:(apply in_seq; lia)).
    unfold lz_step in Hs. cbn [legendre_pair lz]. destruct (legendre_pair n x) as [A B].
    destruct (lz n) as [[Da a] [Db b]]. cbn [fst snd] in *. cbv zeta in *.
    set (N := Z.of_nat (S n)) in *. set (D := (Da * Db * (N + 1))%Z) in *.
    set (l := zadd _ _) in *. set (g := fold_right Z.gcd D l) in *.
    rewrite !andb_true_iff, !Z.ltb_lt, Z.eqb_eq in Hs. destruct Hs as [[[HD Hg] HDg] Hl]. cbn [fst snd].
    pose proof (div_list g l x Hl) as Hx.
    assert (HDa : IZR Da <> 0) by (apply not_0_IZR; lia). assert (HDb : IZR Db <> 0) by (apply not_0_IZR; lia).
    assert (Hgr : IZR g <> 0) by (apply not_0_IZR; lia).
    assert (Hq : (0 < D / g)%Z) by nia.
    assert (HN : IZR N = INR (S n)) by (unfold N; rewrite INR_IZR_INZ; reflexivity).
    assert (HN1 : INR (S n) + 1 <> 0) by (pose proof (pos_INR (S n)); lra).
    split; [exact IH2|]. split; [|split; assumption].
    rewrite IH1, IH2. unfold qeval; cbn [fst snd].
    unfold l in Hx at 1. rewrite zeval_zadd, !zeval_zscale in Hx. cbn [zeval] in Hx.
    rewrite !mult_IZR, opp_IZR, plus_IZR, mult_IZR, HN in Hx.
    apply (f_equal IZR) in HDg. rewrite mult_IZR in HDg. unfold D in HDg at 2. rewrite !mult_IZR, plus_IZR, HN in HDg.
    assert (HqR : IZR (D / g) <> 0) by (apply not_0_IZR; lia).
    set (y := zeval (map _ l) x) in *. set (q := IZR (D / g)) in *. clearbody y q.
    replace y with ((INR (S n) * 2 + 1) * IZR Da * (x * zeval b x) / IZR g - INR (S n) * IZR Db * zeval a x / IZR g) by (field_simplify_eq; [lra|exact Hgr]).
    replace q with (IZR Da * IZR Db * (INR (S n) + 1) / IZR g) by (rewrite <- HDg; field; exact Hgr).
    field. repeat split; try assumption.
Qed.

Definition second_check (i : nat) : bool :=
  ((zabs (zadd (zscale (fst (fst (lz (i - 2)))) (snd (bz2 i))) (zscale (- fst (bz2 i)) (snd (fst (lz (i - 2)))))) =? 0)%Z).
Lemma second_checked : forallb second_check (seq 4 26) = true.
Proof. vm_compute. reflexivity. Qed.
Theorem bardell_second i x : (4 <= i < 30)%nat -> Derive_n (bardell i) 2 x = legendre (i - 2) x.
Proof.
  intro Hi. rewrite Derive2_bardell by lia. unfold legendre.
  destruct (legendre_lz (i - 2) x ltac:(lia)) as (-> & _ & HL & _).
  pose proof second_checked as H. rewrite forallb_forall in H. specialize (H i ltac:(apply in_seq; lia)).
  unfold second_check in H. apply Z.eqb_eq in H. apply (zabs0 _ x) in H. rewrite zeval_zadd, !zeval_zscale, opp_IZR in H.
  destruct (bardell_bz i 0 ltac:(lia)) as [HD _]. unfold qeval. 
  assert (IZR (fst (bz2 i)) <> 0) by (apply not_0_IZR; unfold bz2; cbn [fst]; lia).
  assert (IZR (fst (fst (lz (i - 2)))) <> 0) by (apply not_0_IZR; lia).
  field_simplify_eq; [lra|split; assumption].
Qed.

Lemma lit_poly_derive l x : is_derive (lit_poly l) x (suml l (fun t => lit_val (snd t) * (INR (fst t) * x ^ pred (fst t)))).
Proof.
  unfold lit_poly. induction l as [|t l IH]; cbn [suml]; [apply (is_derive_const 0)|].
  apply (is_derive_plus (fun x => lit_val (snd t) * x ^ fst t)); [|exact IH].
  apply (is_derive_scal (fun x => x ^ fst t)). auto_derive; [exact I|]. ring.
Qed.
Theorem boundary_derivatives i x e : (i < 4)%nat ->
  is_derive (fun y => code_f i y e) x (code_fp i x e) /\ is_derive (fun y => code_fp i y e) x (code_fpp i x e).
Proof.
  intro Hi. do 4 (destruct i as [|i]; [split; unfold code_f, code_fp, code_fpp, scalar_fun; cbn [nth_error lit_f lit_fp lit_fpp];
    unfold lit_fun; cbn [fst snd]; apply (is_derive_scal (lit_poly _));
    (evar_last; [apply lit_poly_derive|]); unfold lit_poly, lit_val; cbn [suml fst snd pred]; cbn [INR]; field|]).
  lia.
Qed.
Theorem vector_scalar x e :
  let agrees (vec scal : list lit_entry) :=
    length (vector_fun vec x e) = 30%nat /\
    (forall i d, (i < 30)%nat -> nth i (vector_fun vec x e) d = scalar_fun scal i x e) /\
    (forall i, (30 <= i)%nat -> scalar_fun scal i x e = 0) in
  agrees vec_f lit_f /\ agrees vec_fp lit_fp /\ agrees vec_fpp lit_fpp.
Proof.
  cbv zeta. destruct vec_tables as (<- & <- & <-). destruct vec_lengths as (H1 & H2 & H3).
  assert (G : forall t, length t = 30%nat -> length (vector_fun t x e) = 30%nat /\
    (forall i d, (i < 30)%nat -> nth i (vector_fun t x e) d = scalar_fun t i x e) /\ (forall i, (30 <= i)%nat -> scalar_fun t i x e = 0)).
  { intros t Ht. split; [unfold vector_fun; rewrite map_length; exact Ht|].
    split; intros; [apply vector_is_scalar; lia|]. apply (vector_is_scalar t i x e 0); lia. }
  repeat split; apply G; assumption.
Qed.
