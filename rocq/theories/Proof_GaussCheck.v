(* Exactness of the stored Gauss-Legendre rules, by fixed-point arithmetic with 2^-72 resolution. *)
From Coq Require Import Reals ZArith List Arith Bool Lia Lra.
From Coquelicot Require Import Coquelicot.
From Verif Require Import Base_Sum Data_Gauss Model_Types Model_Bardell Proof_Poly Proof_Rule.
Import ListNotations.
Open Scope R_scope.

Definition SH : Z := 72.
Definition TWO : Z := Eval vm_compute in (2 ^ 72)%Z.
Lemma TWO_pos : (0 < TWO)%Z. Proof. reflexivity. Qed.
Lemma shiftr_div a : Z.shiftr a SH = (a / TWO)%Z.
Proof. rewrite Z.shiftr_div_pow2 by discriminate. reflexivity. Qed.

(* the number represented *)
Definition fx (a : Z) : R := IZR a / IZR TWO.
Definition eps : R := / IZR TWO.
Lemma TWO_R : 0 < IZR TWO. Proof. apply IZR_lt. reflexivity. Qed.
Lemma eps_pos : 0 < eps. Proof. apply Rinv_0_lt_compat. apply TWO_R. Qed.

Lemma fx_div a b : (0 < b)%Z -> Rabs (fx (a * TWO / b) - IZR a / IZR b) <= eps.
Proof.
  intro Hb. pose proof TWO_R as HT. assert (HB : 0 < IZR b) by (apply IZR_lt; exact Hb).
  pose proof (Z.div_mod (a * TWO) b ltac:(lia)) as Hm. pose proof (Z.mod_pos_bound (a * TWO) b Hb) as [Hr0 Hr1].
  set (q := (a * TWO / b)%Z) in *. set (r := ((a * TWO) mod b)%Z) in *. clearbody q r.
  apply (f_equal IZR) in Hm. rewrite plus_IZR, !mult_IZR in Hm. apply IZR_le in Hr0. apply IZR_lt in Hr1.
  unfold fx, eps. set (T := IZR TWO) in *. clearbody T.
  replace (IZR q / T - IZR a / IZR b) with (- (IZR r / (IZR b * T))).
  2:{ assert (IZR a = (IZR b * IZR q + IZR r) / T) by (rewrite <- Hm; field; lra). rewrite H. field. lra. }
  rewrite Rabs_Ropp, Rabs_right.
  2:{ apply Rle_ge. apply Rmult_le_pos; [exact Hr0|]. left. apply Rinv_0_lt_compat. apply Rmult_lt_0_compat; assumption. }
  apply (Rmult_le_reg_r (IZR b * T)); [apply Rmult_lt_0_compat; assumption|].
  replace (IZR r / (IZR b * T) * (IZR b * T)) with (IZR r) by (field; lra).
  replace (/ T * (IZR b * T)) with (IZR b) by (field; lra). lra.
Qed.
Lemma fx_mul a b : Rabs (fx (Z.shiftr (a * b) SH) - fx a * fx b) <= eps.
Proof.
  rewrite shiftr_div. pose proof TWO_R as HT.
  replace (fx a * fx b) with (IZR (a * b) / (IZR TWO * IZR TWO)) by (rewrite mult_IZR; unfold fx; field; lra).
  pose proof (fx_div (a * b) TWO TWO_pos) as H.
  pose proof (Z.div_mod (a * b) TWO ltac:(discriminate)) as Hm. pose proof (Z.mod_pos_bound (a * b) TWO TWO_pos) as [Hr0 Hr1].
  set (q := (a * b / TWO)%Z) in *. set (r := ((a * b) mod TWO)%Z) in *. clear H. clearbody q r.
  apply (f_equal IZR) in Hm. rewrite plus_IZR, (mult_IZR TWO q) in Hm. apply IZR_le in Hr0. apply IZR_lt in Hr1.
  unfold fx, eps. rewrite Hm. set (T := IZR TWO) in *. clearbody T.
  replace (IZR q / T - (T * IZR q + IZR r) / (T * T)) with (- (IZR r / (T * T))) by (field; lra).
  rewrite Rabs_Ropp, Rabs_right.
  2:{ apply Rle_ge. apply Rmult_le_pos; [exact Hr0|]. left. apply Rinv_0_lt_compat. apply Rmult_lt_0_compat; assumption. }
  apply (Rmult_le_reg_r (T * T)); [apply Rmult_lt_0_compat; assumption|].
  replace (IZR r / (T * T) * (T * T)) with (IZR r) by (field; lra).
  replace (/ T * (T * T)) with T by (field; lra). lra.
Qed.

(* one step: a weighted power times the square of the node *)
Lemma prod_step x a z p k : 0 <= x <= 1 -> (Z.abs a <= TWO)%Z -> Rabs (fx a - x) <= 4 * eps -> Rabs z <= 2 ->
  Rabs (fx p - z) <= k * eps -> Rabs (fx (Z.shiftr (p * a) SH) - z * x) <= (k + 9) * eps.
Proof.
  intros Hx Ha Hax Hz Hp. pose proof (fx_mul p a) as Hm.
  replace (fx (Z.shiftr (p * a) SH) - z * x) with
    ((fx (Z.shiftr (p * a) SH) - fx p * fx a) + ((fx p - z) * fx a + z * (fx a - x))) by ring.
  assert (Hfa : Rabs (fx a) <= 1).
  { unfold fx. unfold Rdiv. rewrite Rabs_mult, <- abs_IZR, (Rabs_right (/ IZR TWO)) by (left; apply eps_pos).
    apply IZR_le in Ha. pose proof TWO_R. apply (Rmult_le_reg_r (IZR TWO)); [assumption|]. rewrite Rmult_assoc, Rinv_l by lra. lra. }
  eapply Rle_trans; [apply Rabs_triang|].
  assert (Rabs ((fx p - z) * fx a + z * (fx a - x)) <= k * eps + 8 * eps).
  { eapply Rle_trans; [apply Rabs_triang|]. rewrite !Rabs_mult.
    pose proof (Rabs_pos (fx p - z)). pose proof (Rabs_pos (fx a)). pose proof (Rabs_pos z). pose proof (Rabs_pos (fx a - x)). pose proof eps_pos.
    apply Rplus_le_compat.
    - eapply Rle_trans; [|exact Hp]. rewrite <- (Rmult_1_r (Rabs (fx p - z))) at 2. apply Rmult_le_compat_l; assumption.
    - replace (8 * eps) with (2 * (4 * eps)) by ring. apply Rmult_le_compat; assumption. }
  lra.
Qed.

Definition lit := (Z * nat)%type.
(* powers of ten, computed once *)
Definition tens : list Z := Eval vm_compute in map tenZ (seq 0 57).
Definition ten_at (d : nat) : Z := nth d tens 1%Z.
Lemma tens_ok : tens = map tenZ (seq 0 57).
Proof. vm_compute. reflexivity. Qed.
Lemma ten_at_ok d : (d <= 56)%nat -> ten_at d = tenZ d.
Proof.
  intro H. unfold ten_at. rewrite tens_ok. rewrite (nth_indep _ _ (tenZ 0)) by (rewrite map_length, seq_length; lia).
  rewrite map_nth, seq_nth by lia. reflexivity.
Qed.

(* decimal literal to fixed point *)
Definition to_fx (x : lit) : Z := (fst x * TWO / ten_at (snd x))%Z.
Lemma to_fx_close x : (snd x <= 56)%nat -> Rabs (fx (to_fx x) - lit_val x) <= eps.
Proof.
  intro H. unfold to_fx. rewrite (ten_at_ok _ H). unfold lit_val. rewrite <- tenZ_IZR. apply fx_div.
  unfold tenZ. apply Z.pow_pos_nonneg; lia.
Qed.

(* nonnegative nodes only: (weight, doubled for a positive node; square of the node) *)
Definition mult_of (x : lit) : Z := if (0 <? fst x)%Z then 2%Z else if (fst x =? 0)%Z then 1%Z else 0%Z.
Definition sq (x : lit) : Z := let y := to_fx x in Z.shiftr (y * y) SH.
Definition half (l : list (lit * lit)) : list (Z * Z) :=
  flat_map (fun t => if (fst (fst t) <? 0)%Z then [] else [((mult_of (fst t) * to_fx (snd t))%Z, sq (fst t))]) l.

(* weighted powers are carried along: (square, weight * power) *)
Definition advance (s : list (Z * Z)) : list (Z * Z) :=
  map (fun t => let '(a, p) := t in (a, Z.shiftr (p * a) SH)) s.
Fixpoint powz (w a : Z) (t : nat) : Z := match t with O => w | S k => Z.shiftr (powz w a k * a) SH end.
Definition stage (h : list (Z * Z)) (t : nat) : list (Z * Z) := map (fun e => (snd e, powz (fst e) (snd e) t)) h.
Definition total (s : list (Z * Z)) : Z := fold_right (fun t r => (snd t + r)%Z) 0%Z s.

(* moment 2t: |total/2^72 - 2/(2t+1)| <= 5e-17 *)
Definition moment_ok (t : nat) (s : list (Z * Z)) : bool :=
  let K := Z.of_nat (2 * t + 1) in
  (Z.abs (total s * K - 2 * TWO) * (2 * tenZ 16) <=? K * TWO)%Z.
Fixpoint moments_ok (fuel t : nat) (s : list (Z * Z)) : bool :=
  match fuel with O => true | S f => (moment_ok t s && moments_ok f (S t) (advance s))%bool end.

Fixpoint sym_ok (l r : list (lit * lit)) : bool :=
  match l, r with
  | [], [] => true
  | (x, w) :: l', (y, v) :: r' =>
      ((fst x =? - fst y)%Z && (snd x =? snd y)%nat && (fst w =? fst v)%Z && (snd w =? snd v)%nat && sym_ok l' r')%bool
  | _, _ => false
  end.
Fixpoint increasing (l : list (lit * lit)) : bool :=
  match l with
  | (x, _) :: (((y, _) :: _) as l') => (fst x * ten_at (snd y) <? fst y * ten_at (snd x))%Z && increasing l'
  | _ => true
  end.
Definition shape_ok (n : nat) (l : list (lit * lit)) : bool :=
  ((length l =? n)%nat && (n <=? 64)%nat &&
   forallb (fun t => (snd (snd t) <=? 56)%nat && (0 <? fst (snd t))%Z && (fst (snd t) <=? ten_at (snd (snd t)))%Z &&
                     (snd (fst t) <=? 56)%nat && (Z.abs (fst (fst t)) <? ten_at (snd (fst t)))%Z) l &&
   sym_ok l (rev l) && increasing l)%bool.
Definition gauss_check (e : nat * list (lit * lit)) : bool :=
  (shape_ok (fst e) (snd e) &&
   let h := half (snd e) in
   forallb (fun e => (Z.abs (snd e) <=? TWO)%Z) h && moments_ok (fst e) 0 (stage h 0))%bool.
Lemma gauss_checked : forallb gauss_check lit_gauss = true.
Proof. vm_compute. reflexivity. Qed.
Lemma gauss_keys : map fst lit_gauss = seq 2 63.
Proof. vm_compute. reflexivity. Qed.
