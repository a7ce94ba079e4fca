(* Derivatives of the energy and of the internal force. *)
From Coq Require Import Reals List Arith Bool Lia Lra.
From Coquelicot Require Import Coquelicot.
From Verif Require Import Base_Sum Model_Types Model_Coo Model_Result Model_Num Model_DB Model_Shell
  Spec_Algebra Spec_Kinematics Spec_Quadrature Spec_Panel Spec_Shell
  Proof_Coo Proof_Num Proof_Energy Proof_Shell Proof_Total Proof_Api Proof_Fint.
Import ListNotations.
Open Scope R_scope.

(* ------------------------------------------------- derivatives of sums *)
Lemma is_derive_suml {A} (l : list A) (f : A -> R -> R) (f' : A -> R) (t : R) :
  (forall x, In x l -> is_derive (f x) t (f' x)) -> is_derive (fun t => suml l (fun x => f x t)) t (suml l f').
Proof.
  induction l as [|x l IH]; intro H; cbn [suml].
  - apply @is_derive_const.
  - apply (is_derive_plus (f x) (fun t => suml l (fun x => f x t)) t (f' x) (suml l f')).
    + apply H. left; reflexivity.
    + apply IH. intros y Hy. apply H. right; exact Hy.
Qed.
Lemma is_derive_sumn n (f : nat -> R -> R) (f' : nat -> R) (t : R) :
  (forall k, (k < n)%nat -> is_derive (f k) t (f' k)) -> is_derive (fun t => sumn n (fun k => f k t)) t (sumn n f').
Proof.
  induction n as [|n IH]; intro H; cbn [sumn].
  - apply @is_derive_const.
  - apply (is_derive_plus (fun t => sumn n (fun k => f k t)) (f n) t (sumn n f') (f' n)).
    + apply IH. intros k Hk. apply H. lia.
    + apply H. lia.
Qed.
Lemma is_derive_scal' k (f : R -> R) t (l : R) : is_derive f t l -> is_derive (fun t => k * f t) t (k * l).
Proof. intro H. apply (is_derive_scal f t k l H). Qed.

Lemma is_derive_integrate Q s nx ny (g : R -> nat -> nat -> R -> R -> R) g' t :
  (forall i j xi eta, (i < nx)%nat -> (j < ny)%nat -> is_derive (fun t => g t i j xi eta) t (g' i j xi eta)) ->
  is_derive (fun t => integrate Q s nx ny (g t)) t (integrate Q s nx ny g').
Proof.
  intro H. unfold integrate. destruct (xregion s) as [xlo xhi], (yregion s) as [ylo yhi].
  apply is_derive_suml; intros px Hx. apply is_derive_suml; intros py Hy. apply is_derive_scal'. apply H.
  - destruct px as [i x]. apply in_combine_l in Hx. apply in_seq in Hx. cbn [fst]. lia.
  - destruct py as [i x]. apply in_combine_l in Hy. apply in_seq in Hy. cbn [fst]. lia.
Qed.
Lemma integrate_plus Q s nx ny g h : integrate Q s nx ny (fun i j xi eta => g i j xi eta + h i j xi eta) =
  integrate Q s nx ny g + integrate Q s nx ny h.
Proof.
  unfold integrate. destruct (xregion s) as [xlo xhi], (yregion s) as [ylo yhi].
  rewrite <- suml_plus. apply suml_ext; intros px _. rewrite <- suml_plus. apply suml_ext; intros py _. ring.
Qed.
Lemma integrate_scal Q s nx ny k g : integrate Q s nx ny (fun i j xi eta => k * g i j xi eta) = k * integrate Q s nx ny g.
Proof.
  unfold integrate. destruct (xregion s) as [xlo xhi], (yregion s) as [ylo yhi].
  rewrite <- suml_scal. apply suml_ext; intros px _. rewrite <- suml_scal. apply suml_ext; intros py _. ring.
Qed.

(* ------------------------------------------------- fields along a line *)
Definition line (c d : nat -> R) (t : R) : nat -> R := fun k => c k + t * d k.
Section Line.
Variables (kappa : R) (Bs : basis) (s : shell) (c d : nat -> R).
Lemma fld_line t e p q xi eta : fld Bs s (line c d t) e p q xi eta = fld Bs s c e p q xi eta + t * fld Bs s d e p q xi eta.
Proof.
  unfold fld, ritz. rewrite <- sumn_scal, <- sumn_plus. apply sumn_ext; intros j _.
  rewrite <- sumn_scal, <- sumn_plus. apply sumn_ext; intros i _. unfold line. ring.
Qed.
Lemma wx_line t xi eta : d_wx Bs s (line c d t) xi eta = d_wx Bs s c xi eta + t * d_wx Bs s d xi eta.
Proof. unfold d_wx. rewrite fld_line. ring. Qed.
Lemma wy_line t xi eta : d_wy Bs s (line c d t) xi eta = d_wy Bs s c xi eta + t * d_wy Bs s d xi eta.
Proof. unfold d_wy. rewrite fld_line. ring. Qed.
Lemma lin_line t xi eta k : lin_strain kappa Bs s (line c d t) xi eta k = lin_strain kappa Bs s c xi eta k + t * lin_strain kappa Bs s d xi eta k.
Proof.
  destruct k as [|[|[|[|[|[|k]]]]]]; cbn [lin_strain];
  unfold d_ux, d_uy, d_vx, d_vy, d_w, d_wxx, d_wyy, d_wxy; rewrite ?fld_line; ring.
Qed.
Lemma strain_line t xi eta k : strain kappa Bs s (line c d t) xi eta k =
  strain kappa Bs s c xi eta k + t * dstrain kappa Bs s c d xi eta k + t * t * vk_strain Bs s d xi eta k.
Proof.
  unfold strain, dstrain. rewrite lin_line.
  destruct k as [|[|[|[|[|[|k]]]]]]; cbn [vk_strain]; rewrite ?wx_line, ?wy_line; field.
Qed.
Lemma dstrain_line v t xi eta k : dstrain kappa Bs s (line c d t) v xi eta k =
  dstrain kappa Bs s c v xi eta k + t * (dstrain kappa Bs s d v xi eta k - lin_strain kappa Bs s v xi eta k).
Proof.
  unfold dstrain. destruct k as [|[|[|[|[|[|k]]]]]]; rewrite ?wx_line, ?wy_line; ring.
Qed.
Definition cross (c d : nat -> R) xi eta : R := d_wx Bs s c xi eta * d_wy Bs s d xi eta + d_wy Bs s c xi eta * d_wx Bs s d xi eta.
Lemma doubled_line t xi eta k : doubled_strain kappa Bs s (line c d t) xi eta k =
  doubled_strain kappa Bs s c xi eta k +
  t * (dstrain kappa Bs s c d xi eta k + match k with 2%nat => cross c d xi eta | _ => 0 end) +
  t * t * (vk_strain Bs s d xi eta k + match k with 2%nat => d_wx Bs s d xi eta * d_wy Bs s d xi eta | _ => 0 end).
Proof.
  unfold doubled_strain. rewrite strain_line.
  destruct k as [|[|[|k]]]; unfold cross; rewrite ?wx_line, ?wy_line; ring.
Qed.
End Line.

Lemma shear_dot F g e : dot 6 (fun k => F k 2%nat * g) e = shear_work F g e.
Proof. reflexivity. Qed.

Lemma resultant_plus2 F (e : nat -> R) g k :
  resultant F (fun l => e l + match l with 2%nat => g | _ => 0 end) k = resultant F e k + F k 2%nat * g.
Proof. unfold resultant. cbn [sumn]. ring. Qed.

(* derivative of the energy *)
Lemma energy_derive Q kappa Bs s nx ny F c d : (forall i j, (i < nx)%nat -> (j < ny)%nat -> is_ABD (F i j)) ->
  is_derive (fun t => strain_energy Q kappa Bs s nx ny F (line c d t)) 0
   (integrate Q s nx ny (fun i j xi eta => dot 6 (resultant (F i j) (strain kappa Bs s c xi eta)) (dstrain kappa Bs s c d xi eta))).
Proof.
  intro HF. unfold strain_energy.
  replace (integrate Q s nx ny _) with (1 / 2 * integrate Q s nx ny (fun i j xi eta =>
     2 * dot 6 (resultant (F i j) (strain kappa Bs s c xi eta)) (dstrain kappa Bs s c d xi eta))) by (rewrite integrate_scal; field).
  apply is_derive_scal'. apply is_derive_integrate. intros i j xi eta Hi Hj.
  destruct (HF i j Hi Hj) as [Hsym _].
  set (A := strain kappa Bs s c xi eta). set (B := dstrain kappa Bs s c d xi eta). set (C := vk_strain Bs s d xi eta).
  replace (2 * dot 6 (resultant (F i j) A) B) with (sumn 6 (fun k => sumn 6 (fun l => F i j k l * (B k * A l + A k * B l)))).
  2:{ unfold dot, resultant.
      transitivity (sumn 6 (fun k => sumn 6 (fun l => F i j k l * A l * B k)) + sumn 6 (fun k => sumn 6 (fun l => F i j k l * A k * B l))).
      - rewrite <- sumn_plus. apply sumn_ext; intros. rewrite <- sumn_plus. apply sumn_ext; intros. ring.
      - rewrite (sumn_swap 6 6 (fun k l => F i j k l * A k * B l)).
        rewrite (sumn_ext 6 (fun j0 => sumn 6 (fun i0 => F i j i0 j0 * A i0 * B j0)) (fun k => sumn 6 (fun l => F i j k l * A l * B k))).
        2:{ intros k Hk. apply sumn_ext; intros l Hl. rewrite (Hsym l k) by assumption. reflexivity. }
        rewrite (sumn_ext 6 (fun i0 => sumn 6 (fun l => F i j i0 l * A l) * B i0) (fun k => sumn 6 (fun l => F i j k l * A l * B k))).
        + ring.
        + intros k _. rewrite Rmult_comm, <- sumn_scal. apply sumn_ext; intros; ring. }
  unfold form. apply is_derive_sumn; intros k _. apply is_derive_sumn; intros l _.
  apply (is_derive_ext (fun t => F i j k l * (A k + t * B k + t * t * C k) * (A l + t * B l + t * t * C l))).
  - intro t. rewrite !strain_line. reflexivity.
  - auto_derive; [exact I|]. ring.
Qed.

(* derivative of the virtual work of the coded internal force *)
Definition fint_density F kappa Bs s (c v : nat -> R) xi eta : R :=
  dot 6 (resultant F (doubled_strain kappa Bs s c xi eta)) (dstrain kappa Bs s c v xi eta).

Lemma second_membrane Bs s kappa d v xi eta (N : nat -> R) :
  dot 6 N (fun k => dstrain kappa Bs s d v xi eta k - lin_strain kappa Bs s v xi eta k) =
  membrane_work Bs s (N 0%nat) (N 1%nat) (N 2%nat) v d xi eta.
Proof. unfold dot, dstrain, membrane_work. cbn [sumn]. ring. Qed.

Lemma density_derive F kappa Bs s c d v xi eta : is_ABD F ->
  is_derive (fun t => fint_density F kappa Bs s (line c d t) v xi eta) 0
   (form 6 F (dstrain kappa Bs s c v xi eta) (dstrain kappa Bs s c d xi eta) +
    (let N := resultant F (doubled_strain kappa Bs s c xi eta) in
     membrane_work Bs s (N 0%nat) (N 1%nat) (N 2%nat) v d xi eta) +
    shear_work F (cross Bs s c d xi eta) (dstrain kappa Bs s c v xi eta)).
Proof.
  intros [Hsym _]. cbv zeta. rewrite <- (second_membrane Bs s kappa).
  set (E2 := fun k => match k with 2%nat => cross Bs s c d xi eta | _ => 0 end).
  set (A := doubled_strain kappa Bs s c xi eta). set (B := dstrain kappa Bs s c d xi eta).
  set (X := dstrain kappa Bs s c v xi eta). set (Y := fun k => dstrain kappa Bs s d v xi eta k - lin_strain kappa Bs s v xi eta k).
  set (C := fun k => vk_strain Bs s d xi eta k + match k with 2%nat => d_wx Bs s d xi eta * d_wy Bs s d xi eta | _ => 0 end).
  replace (form 6 F X B + dot 6 (resultant F A) Y + shear_work F (cross Bs s c d xi eta) X) with
    (sumn 6 (fun k => resultant F (fun l => B l + E2 l) k * X k + resultant F A k * Y k)).
  2:{ rewrite sumn_plus. unfold dot at 1. unfold E2.
      rewrite (sumn_ext 6 (fun i => resultant F (fun l => B l + match l with 2%nat => cross Bs s c d xi eta | _ => 0 end) i * X i)
        (fun k => resultant F B k * X k + F k 2%nat * cross Bs s c d xi eta * X k)) by (intros; rewrite resultant_plus2; ring).
      rewrite sumn_plus. unfold shear_work.
      replace (form 6 F X B) with (sumn 6 (fun i => resultant F B i * X i)); [unfold dot; ring|].
      unfold form, resultant. apply sumn_ext; intros k _. rewrite Rmult_comm, <- sumn_scal. apply sumn_ext; intros; ring. }
  unfold fint_density. unfold dot at 1. apply is_derive_sumn; intros k _.
  set (a := resultant F A k). set (b := resultant F (fun l => B l + E2 l) k). set (g := resultant F C k).
  apply (is_derive_ext (fun t => (a + t * b + t * t * g) * (X k + t * Y k))).
  - intro t. rewrite dstrain_line. f_equal. unfold a, b, g, resultant. rewrite <- !sumn_scal, <- !sumn_plus.
    apply sumn_ext; intros l _. rewrite doubled_line. unfold A, B, C, E2. ring.
  - auto_derive; [exact I|]. ring.
Qed.

(* excess of the coded virtual work over the variation of the energy *)
Lemma density_excess F kappa Bs s c v xi eta :
  fint_density F kappa Bs s c v xi eta =
  dot 6 (resultant F (strain kappa Bs s c xi eta)) (dstrain kappa Bs s c v xi eta) +
  shear_work F (d_wx Bs s c xi eta * d_wy Bs s c xi eta) (dstrain kappa Bs s c v xi eta).
Proof.
  unfold fint_density, dot, shear_work. rewrite <- sumn_plus. apply sumn_ext; intros k _.
  unfold doubled_strain. rewrite resultant_plus2. ring.
Qed.
