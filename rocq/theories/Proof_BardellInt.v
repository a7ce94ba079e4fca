(* The stored integrals against the exact ones. *)
From Coq Require Import Reals ZArith List Arith Bool Lia Lra.
From Coquelicot Require Import Coquelicot.
From Verif Require Import Base_Sum Data_BardellInt Model_Types Model_Bardell Spec_Bardell Proof_Poly Proof_Bardell.
Import ListNotations.
Open Scope R_scope.

Definition LL : Z := fold_right (fun k s => Z.lcm (Z.of_nat (k + 1)) s) 1%Z (seq 0 60).
Definition LLv : Z := Eval vm_compute in LL.
Lemma LLv_ok : forallb (fun e => (LLv mod (Z.of_nat e + 1) =? 0)%Z) (seq 0 60) = true.
Proof. vm_compute. reflexivity. Qed.

(* moments of 1, x, x^2, ..., times LLv *)
Definition mu (e : nat) : Z := if Z.even (Z.of_nat e) then (2 * (LLv / (Z.of_nat e + 1)))%Z else 0%Z.
Definition MUv : list Z := Eval vm_compute in map mu (seq 0 60).
Lemma MUv_ok : MUv = map mu (seq 0 60).
Proof. vm_compute. reflexivity. Qed.

Fixpoint zdot (p q : list Z) : Z :=
  match p, q with a :: p', b :: q' => ((if (a =? 0)%Z then 0 else a * b) + zdot p' q')%Z | _, _ => 0%Z end.

(* LLv times the integrals of x^k l, k < 30 *)
Definition dual (l : list Z) : list Z := map (fun k => zdot l (skipn k MUv)) (seq 0 30).

Lemma skipn_map_seq {A} (f : nat -> A) k n : skipn k (map f (seq 0 n)) = map f (seq k (n - k)).
Proof.
  rewrite skipn_map. f_equal. assert (H : forall k b n, skipn k (seq b n) = seq (b + k) (n - k)).
  { clear. induction k as [|k IH]; intros b n; [cbn [skipn]; rewrite Nat.add_0_r, Nat.sub_0_r; reflexivity|].
    destruct n as [|n]; [reflexivity|]. cbn [seq skipn Nat.sub]. rewrite IH. f_equal; lia. }
  apply (H k 0%nat n).
Qed.
Lemma zdot_mu l : forall k n, (length l <= n)%nat -> zdot l (map mu (seq k n)) = zint_from LLv (Z.of_nat k) l.
Proof.
  induction l as [|a l IH]; intros k n Hn; cbn [length] in Hn; [reflexivity|].
  destruct n as [|n]; [lia|]. cbn [seq map zdot zint_from]. rewrite IH by lia.
  replace (Z.of_nat (S k)) with (Z.of_nat k + 1)%Z by lia. f_equal. unfold mu.
  destruct (Z.eqb_spec a 0) as [->|_]; destruct (Z.even (Z.of_nat k)); ring.
Qed.

Lemma moment_RInt l k : (k < 30)%nat -> (length l <= 30)%nat ->
  is_RInt (fun x => x ^ k * zeval l x) (-1) 1 (IZR (zdot l (skipn k MUv)) / IZR LLv).
Proof.
  intros Hk HL. rewrite MUv_ok, skipn_map_seq, zdot_mu by lia.
  apply zint_correct; [|reflexivity]. intros e He. pose proof LLv_ok as H. rewrite forallb_forall in H.
  apply Z.eqb_eq. apply H. apply in_seq. lia.
Qed.

Lemma product_RInt p : (length p <= 30)%nat -> forall q k, (k + length q <= 30)%nat ->
  is_RInt (fun x => x ^ k * (zeval p x * zeval q x)) (-1) 1
    (IZR (zdot q (map (fun k => zdot p (skipn k MUv)) (seq k (30 - k)))) / IZR LLv).
Proof.
  intros Hp. assert (HLL : 0 < IZR LLv) by (apply IZR_lt; reflexivity).
  induction q as [|a q IH]; intros k Hk; cbn [length] in Hk.
  - cbn [zdot zeval]. apply (is_RInt_ext (fun _ : R => 0)). { intros x _. cbn [pow]. change (0 = x ^ k * (zeval p x * 0)). ring. }
    evar_last; [apply (@is_RInt_const R_NormedModule)|]. unfold scal; cbn; unfold mult; cbn. field. lra.
  - replace (30 - k)%nat with (S (30 - S k)) by lia. cbn [seq map zdot].
    apply (is_RInt_ext (fun x => plus (scal (IZR a) (x ^ k * zeval p x)) (x ^ S k * (zeval p x * zeval q x)))).
    { intros x _. change (IZR a * (x ^ k * zeval p x) + x ^ S k * (zeval p x * zeval q x) = x ^ k * (zeval p x * (IZR a + x * zeval q x))). cbn [pow]. ring. }
    evar_last; [apply @is_RInt_plus; [apply @is_RInt_scal; apply (moment_RInt p k); lia|apply (IH (S k)); lia]|].
    unfold plus, scal; cbn [AbelianGroup.plus]; cbn; unfold mult; cbn. rewrite plus_IZR.
    destruct (Z.eqb_spec a 0) as [->|_]; [|rewrite mult_IZR]; field; lra.
Qed.
Lemma zdot_RInt p q : (length p <= 30)%nat -> (length q <= 30)%nat ->
  is_RInt (fun x => zeval p x * zeval q x) (-1) 1 (IZR (zdot q (dual p)) / IZR LLv).
Proof.
  intros Hp Hq. apply (is_RInt_ext (fun x => x ^ 0 * (zeval p x * zeval q x))). { intros x _. cbn. ring. }
  exact (product_RInt p Hp q 0%nat Hq).
Qed.

Definition entry_at (tab : list (nat * list (nat * int_entry))) (i j : nat) : option int_entry :=
  match assoc i tab with None => None | Some row => assoc j row end.

Definition entry_check (i j : nat) (p q : Z * list Z) (dp : list Z) (o : option int_entry) : bool :=
  let I := zdot (snd q) dp in
  ((length (snd p) <=? 30)%nat && (length (snd q) <=? 30)%nat &&
  match o with
  | None => (I =? 0)%Z
  | Some ((m, d), (fx, fy)) =>
      flag_ok i fx && flag_ok j fy &&
      (Z.abs (m * (LLv * fst p * fst q) - I * tenZ d) * tenZ 15 <=? 5 * Z.abs I * tenZ d)%Z
  end)%bool.

Definition tab_check (P Q : list (nat * (Z * list Z))) (tab : list (nat * list (nat * int_entry))) : bool :=
  forallb (fun ip => let dp := dual (snd (snd ip)) in
    forallb (fun jq => entry_check (fst ip) (fst jq) (snd ip) (snd jq) dp (entry_at tab (fst ip) (fst jq))) Q) P.
Definition polys (b : nat -> Z * list Z) := map (fun i => (i, b i)) (seq 0 30).

Lemma tab_ff : tab_check (polys bz) (polys bz) lit_int_ff = true. Proof. vm_compute. reflexivity. Qed.
Lemma tab_ffp : tab_check (polys bz) (polys bz1) lit_int_ffp = true. Proof. vm_compute. reflexivity. Qed.
Lemma tab_ffpp : tab_check (polys bz) (polys bz2) lit_int_ffpp = true. Proof. vm_compute. reflexivity. Qed.
Lemma tab_fpfp : tab_check (polys bz1) (polys bz1) lit_int_fpfp = true. Proof. vm_compute. reflexivity. Qed.
Lemma tab_fpfpp : tab_check (polys bz1) (polys bz2) lit_int_fpfpp = true. Proof. vm_compute. reflexivity. Qed.
Lemma tab_fppfpp : tab_check (polys bz2) (polys bz2) lit_int_fppfpp = true. Proof. vm_compute. reflexivity. Qed.

Lemma entry_sound i j p q o : entry_check i j p q (dual (snd p)) o = true -> (0 < fst p)%Z -> (0 < fst q)%Z ->
  exists I, is_RInt (fun x => qeval p x * qeval q x) (-1) 1 I /\
  match o with
  | None => I = 0
  | Some ((m, d), (fx, fy)) => flag_ok i fx = true /\ flag_ok j fy = true /\ Rabs (lit_val (m, d) - I) <= 5 / 10 ^ 15 * Rabs I
  end.
Proof.
  unfold entry_check. cbv zeta. rewrite !andb_true_iff, !Nat.leb_le. intros [[HLp HLq] Ho] Hp Hq.
  pose proof (zdot_RInt (snd p) (snd q) HLp HLq) as HI. set (l := zdot (snd q) (dual (snd p))) in *. clearbody l.
  assert (HP : 0 < IZR (fst p)) by (apply IZR_lt; exact Hp). assert (HQ : 0 < IZR (fst q)) by (apply IZR_lt; exact Hq).
  assert (HLL : 0 < IZR LLv) by (apply IZR_lt; reflexivity).
  exists (IZR l / (IZR LLv * IZR (fst p) * IZR (fst q))). split.
  - apply (is_RInt_ext (fun x => scal (/ (IZR (fst p) * IZR (fst q))) (zeval (snd p) x * zeval (snd q) x))).
    { intros x _. unfold qeval, scal; cbn; unfold mult; cbn. field. split; lra. }
    evar_last; [apply @is_RInt_scal; exact HI|]. unfold scal; cbn; unfold mult; cbn. field. repeat split; lra.
  - destruct o as [[[m d] [fx fy]]|].
    + rewrite !andb_true_iff, Z.leb_le in Ho. destruct Ho as [[Hx Hy] Ho]. split; [exact Hx|]. split; [exact Hy|].
      apply IZR_le in Ho. rewrite !mult_IZR, !abs_IZR, minus_IZR, !mult_IZR, !tenZ_IZR in Ho.
      unfold lit_val; cbn [fst snd]. set (z := IZR l) in *. set (D := IZR LLv * IZR (fst p) * IZR (fst q)) in *.
      assert (HD : 0 < D) by (unfold D; apply Rmult_lt_0_compat; [apply Rmult_lt_0_compat|]; assumption).
      clearbody D z. assert (Ht : 0 < (10:R) ^ d) by (apply pow_lt; lra). assert (HT : 0 < (10:R) ^ 15) by (apply pow_lt; lra).
      replace (IZR m / 10 ^ d - z / D) with ((IZR m * D - z * 10 ^ d) / (D * 10 ^ d)) by (field; lra).
      unfold Rdiv. rewrite !Rabs_mult, (Rabs_right (/ (D * 10 ^ d))), (Rabs_right (/ D)); try (left; apply Rinv_0_lt_compat; try apply Rmult_lt_0_compat; lra).
      apply (Rmult_le_reg_r (D * 10 ^ d * 10 ^ 15)); [apply Rmult_lt_0_compat; [apply Rmult_lt_0_compat|]; lra|].
      replace (Rabs (IZR m * D - z * 10 ^ d) * / (D * 10 ^ d) * (D * 10 ^ d * 10 ^ 15)) with (Rabs (IZR m * D - z * 10 ^ d) * 10 ^ 15) by (field; lra).
      replace (5 * / 10 ^ 15 * (Rabs z * / D) * (D * 10 ^ d * 10 ^ 15)) with (5 * Rabs z * 10 ^ d) by (field; lra).
      exact Ho.
    + apply Z.eqb_eq in Ho. rewrite Ho. apply Rmult_0_l.
Qed.

Lemma tab_sound P Q tab i j : tab_check (polys P) (polys Q) tab = true -> (i < 30)%nat -> (j < 30)%nat ->
  entry_check i j (P i) (Q j) (dual (snd (P i))) (entry_at tab i j) = true.
Proof.
  unfold tab_check. rewrite forallb_forall. intros H Hi Hj.
  specialize (H (i, P i) ltac:(apply in_map_iff; exists i; split; [reflexivity|apply in_seq; lia])). rewrite forallb_forall in H.
  exact (H (j, Q j) ltac:(apply in_map_iff; exists j; split; [reflexivity|apply in_seq; lia])).
Qed.

Lemma int_close P Q tab (g h : nat -> R -> R) i j ex ey :
  tab_check (polys P) (polys Q) tab = true -> (i < 30)%nat -> (j < 30)%nat ->
  (forall x, g i x = qeval (P i) x) -> (forall x, h j x = qeval (Q j) x) -> (0 < fst (P i))%Z -> (0 < fst (Q j))%Z ->
  let I := RInt (fun x => (flag ex i * g i x) * (flag ey j * h j x)) (-1) 1 in
  Rabs (int_fun tab i j ex ey - I) <= 5 / 10 ^ 15 * Rabs I.
Proof.
  intros H Hi Hj Hg Hh Hp Hq. apply (tab_sound _ _ _ i j) in H; [|assumption|assumption].
  apply entry_sound in H; [|assumption|assumption]. destruct H as (I & HI & Ho). cbv zeta.
  replace (RInt _ (-1) 1) with (flag ex i * flag ey j * I).
  2:{ symmetry. apply is_RInt_unique. apply (is_RInt_ext (fun x => scal (flag ex i * flag ey j) (qeval (P i) x * qeval (Q j) x))).
      { intros x _. rewrite Hg, Hh. unfold scal; cbn; unfold mult; cbn. ring. }
      apply @is_RInt_scal. exact HI. }
  unfold int_fun. unfold entry_at in Ho. destruct (assoc i tab) as [row|].
  - destruct (assoc j row) as [[[m d] [fx fy]]|].
    + destruct Ho as (Hx & Hy & Ho). rewrite (flag_sound _ _ _ Hx), (flag_sound _ _ _ Hy).
      replace (lit_val (m, d) * flag ex i * flag ey j - flag ex i * flag ey j * I) with (flag ex i * flag ey j * (lit_val (m, d) - I)) by ring.
      rewrite !(Rabs_mult (flag ex i * flag ey j)). pose proof (Rabs_pos (flag ex i * flag ey j)).
      replace (5 / 10 ^ 15 * (Rabs (flag ex i * flag ey j) * Rabs I)) with (Rabs (flag ex i * flag ey j) * (5 / 10 ^ 15 * Rabs I)) by ring.
      apply Rmult_le_compat_l; assumption.
    + rewrite Ho. rewrite Rmult_0_r, Rminus_0_r, Rabs_R0. lra.
  - rewrite Ho. rewrite Rmult_0_r, Rminus_0_r, Rabs_R0. lra.
Qed.

Theorem code_tables_close i j ex ey : (i < 30)%nat -> (j < 30)%nat ->
  let ok (code exact : R) := Rabs (code - exact) <= 5 / 10 ^ 15 * Rabs exact in
  ok (t_ff code_tables i j ex ey) (t_ff exact_tables i j ex ey) /\
  ok (t_ffp code_tables i j ex ey) (t_ffp exact_tables i j ex ey) /\
  ok (t_ffpp code_tables i j ex ey) (t_ffpp exact_tables i j ex ey) /\
  ok (t_fpfp code_tables i j ex ey) (t_fpfp exact_tables i j ex ey) /\
  ok (t_fpfpp code_tables i j ex ey) (t_fpfpp exact_tables i j ex ey) /\
  ok (t_fppfpp code_tables i j ex ey) (t_fppfpp exact_tables i j ex ey).
Proof.
  intros Hi Hj. destruct (bardell_bz i 0 Hi) as [Hp _]. destruct (bardell_bz j 0 Hj) as [Hq _].
  assert (A0 := bardell_qeval). 
  assert (A1 := fun i Hi x => Derive_bardell i x Hi). assert (A2 := fun i Hi x => Derive2_bardell i x Hi).
  repeat split.
  - exact (int_close bz bz _ bardell bardell i j ex ey tab_ff Hi Hj (A0 i Hi) (A0 j Hj) Hp Hq).
  - exact (int_close bz bz1 _ bardell (fun i => Derive (bardell i)) i j ex ey tab_ffp Hi Hj (A0 i Hi) (A1 j Hj) Hp Hq).
  - exact (int_close bz bz2 _ bardell (fun i => Derive_n (bardell i) 2) i j ex ey tab_ffpp Hi Hj (A0 i Hi) (A2 j Hj) Hp Hq).
  - exact (int_close bz1 bz1 _ (fun i => Derive (bardell i)) (fun i => Derive (bardell i)) i j ex ey tab_fpfp Hi Hj (A1 i Hi) (A1 j Hj) Hp Hq).
  - exact (int_close bz1 bz2 _ (fun i => Derive (bardell i)) (fun i => Derive_n (bardell i) 2) i j ex ey tab_fpfpp Hi Hj (A1 i Hi) (A2 j Hj) Hp Hq).
  - exact (int_close bz2 bz2 _ (fun i => Derive_n (bardell i) 2) (fun i => Derive_n (bardell i) 2) i j ex ey tab_fppfpp Hi Hj (A2 i Hi) (A2 j Hj) Hp Hq).
Qed.

(* exact_tables are symmetric, and so are the stored ones *)
Definition opt_nat_eqb (a b : option nat) : bool :=
  match a, b with Some x, Some y => (x =? y)%nat | None, None => true | _, _ => false end.
Definition sym_entry (a b : option int_entry) : bool :=
  match a, b with
  | None, None => true
  | Some ((m, d), (fx, fy)), Some ((m', d'), (fx', fy')) =>
      ((m =? m')%Z && (d =? d')%nat && opt_nat_eqb fx fy' && opt_nat_eqb fy fx')%bool
  | _, _ => false
  end.
Definition sym_check (tab : list (nat * list (nat * int_entry))) : bool :=
  (forallb (fun r => (fst r <? 30)%nat && forallb (fun c => (fst c <? 30)%nat) (snd r)) tab &&
   forallb (fun i => forallb (fun j => sym_entry (entry_at tab i j) (entry_at tab j i)) (seq 0 30)) (seq 0 30))%bool.
Lemma sym_checked : sym_check lit_int_ff = true /\ sym_check lit_int_fpfp = true /\ sym_check lit_int_fppfpp = true.
Proof. repeat split; vm_compute; reflexivity. Qed.

Lemma opt_nat_eqb_eq a b : opt_nat_eqb a b = true -> a = b.
Proof. destruct a, b; cbn; try discriminate; [|reflexivity]. intro H. apply Nat.eqb_eq in H. congruence. Qed.

Lemma assoc_ge {A} (l : list (nat * A)) k : forallb (fun r => (fst r <? 30)%nat) l = true -> (30 <= k)%nat -> assoc k l = None.
Proof.
  induction l as [|[k' v] l IH]; cbn [forallb assoc fst]; intros H Hk; [reflexivity|].
  apply andb_true_iff in H. destruct H as [H1 H2]. apply Nat.ltb_lt in H1.
  destruct (Nat.eqb_spec k k'); [lia|]. apply IH; assumption.
Qed.
Lemma assoc_In' {A} k (l : list (nat * A)) v : assoc k l = Some v -> In (k, v) l.
Proof.
  induction l as [|[k' v'] l IH]; cbn; [discriminate|].
  destruct (Nat.eqb_spec k k'); intro H; [inversion H; subst; auto|auto].
Qed.
Lemma int_fun_entry tab i j ex ey : int_fun tab i j ex ey =
  match entry_at tab i j with None => 0 | Some (c, (fx, fy)) => lit_val c * flag_val ex fx * flag_val ey fy end.
Proof. unfold int_fun, entry_at. destruct (assoc i tab); reflexivity. Qed.

Lemma sym_sound tab i j ex ey : sym_check tab = true -> int_fun tab i j ex ey = int_fun tab j i ey ex.
Proof.
  unfold sym_check. rewrite andb_true_iff. intros [Hr Hs].
  assert (Hout : forall i j, (30 <= i \/ 30 <= j)%nat -> entry_at tab i j = None).
  { intros i' j' H. unfold entry_at. destruct (assoc i' tab) as [row|] eqn:E; [|reflexivity].
    rewrite forallb_forall in Hr. specialize (Hr _ (assoc_In' _ _ _ E)). cbn [fst snd] in Hr. apply andb_true_iff in Hr.
    destruct Hr as [H1 H2]. apply Nat.ltb_lt in H1. apply assoc_ge; [exact H2|lia]. }
  rewrite !int_fun_entry.
  destruct (le_lt_dec 30 i) as [Hi|Hi]; [rewrite !Hout by lia; reflexivity|].
  destruct (le_lt_dec 30 j) as [Hj|Hj]; [rewrite !Hout by lia; reflexivity|].
  rewrite forallb_forall in Hs. specialize (Hs i ltac:(apply in_seq; lia)). rewrite forallb_forall in Hs. specialize (Hs j ltac:(apply in_seq; lia)).
  unfold sym_entry in Hs. destruct (entry_at tab i j) as [[[m d] [fx fy]]|], (entry_at tab j i) as [[[m' d'] [fx' fy']]|]; try discriminate; [|reflexivity].
  rewrite !andb_true_iff, Z.eqb_eq, Nat.eqb_eq in Hs. destruct Hs as [[[-> ->] H1] H2].
  apply opt_nat_eqb_eq in H1. apply opt_nat_eqb_eq in H2. subst. ring.
Qed.
Theorem code_tables_sym i j ex ey :
  t_ff code_tables i j ex ey = t_ff code_tables j i ey ex /\
  t_fpfp code_tables i j ex ey = t_fpfp code_tables j i ey ex /\
  t_fppfpp code_tables i j ex ey = t_fppfpp code_tables j i ey ex.
Proof. destruct sym_checked as (H1 & H2 & H3). repeat split; apply sym_sound; assumption. Qed.

Lemma tab_ex P Q tab (g h : nat -> R -> R) i j ex ey :
  tab_check (polys P) (polys Q) tab = true -> (i < 30)%nat -> (j < 30)%nat ->
  (forall x, g i x = qeval (P i) x) -> (forall x, h j x = qeval (Q j) x) -> (0 < fst (P i))%Z -> (0 < fst (Q j))%Z ->
  ex_RInt (fun x => (flag ex i * g i x) * (flag ey j * h j x)) (-1) 1.
Proof.
  intros H Hi Hj Hg Hh Hp Hq. apply (tab_sound _ _ _ i j) in H; [|assumption|assumption].
  apply entry_sound in H; [|assumption|assumption]. destruct H as (I & HI & _).
  exists (flag ex i * flag ey j * I). apply (is_RInt_ext (fun x => scal (flag ex i * flag ey j) (qeval (P i) x * qeval (Q j) x))).
  { intros x _. rewrite Hg, Hh. unfold scal; cbn; unfold mult; cbn. ring. }
  apply @is_RInt_scal. exact HI.
Qed.
Theorem integrals_exist i j ex ey : (i < 30)%nat -> (j < 30)%nat ->
  let f := bf exact_basis in let fp := bfp exact_basis in let fpp := bfpp exact_basis in
  let ok (g h : nat -> R -> edge -> R) := ex_RInt (fun x => g i x ex * h j x ey) (-1) 1 in
  ok f f /\ ok f fp /\ ok f fpp /\ ok fp fp /\ ok fp fpp /\ ok fpp fpp.
Proof.
  intros Hi Hj. destruct (bardell_bz i 0 Hi) as [Hp _]. destruct (bardell_bz j 0 Hj) as [Hq _].
  assert (A0 := bardell_qeval). 
  assert (A1 := fun i Hi x => Derive_bardell i x Hi). assert (A2 := fun i Hi x => Derive2_bardell i x Hi).
  repeat split.
  - exact (tab_ex bz bz _ bardell bardell i j ex ey tab_ff Hi Hj (A0 i Hi) (A0 j Hj) Hp Hq).
  - exact (tab_ex bz bz1 _ bardell (fun i => Derive (bardell i)) i j ex ey tab_ffp Hi Hj (A0 i Hi) (A1 j Hj) Hp Hq).
  - exact (tab_ex bz bz2 _ bardell (fun i => Derive_n (bardell i) 2) i j ex ey tab_ffpp Hi Hj (A0 i Hi) (A2 j Hj) Hp Hq).
  - exact (tab_ex bz1 bz1 _ (fun i => Derive (bardell i)) (fun i => Derive (bardell i)) i j ex ey tab_fpfp Hi Hj (A1 i Hi) (A1 j Hj) Hp Hq).
  - exact (tab_ex bz1 bz2 _ (fun i => Derive (bardell i)) (fun i => Derive_n (bardell i) 2) i j ex ey tab_fpfpp Hi Hj (A1 i Hi) (A2 j Hj) Hp Hq).
  - exact (tab_ex bz2 bz2 _ (fun i => Derive_n (bardell i) 2) (fun i => Derive_n (bardell i) 2) i j ex ey tab_fppfpp Hi Hj (A2 i Hi) (A2 j Hj) Hp Hq).
Qed.
