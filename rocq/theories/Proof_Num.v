(* The numerically integrated matrices as Gram matrices of strain operators. *)
From Coq Require Import Reals List Arith Bool Lia Lra.
From Verif Require Import Base_Sum Model_Types Model_Coo Model_Result Model_PlateNumKer Model_CylNumKer
  Model_Num Spec_Algebra Spec_Kinematics Proof_Coo.
Import ListNotations.
Open Scope R_scope.

(* strain operator: contribution of component d of term (i,j) to strain k, at slopes wx, wy *)
Definition Bop (kappa : R) (Bs : basis) (s : shell) (wx wy xi eta : R) (k i j d : nat) : R :=
  let a := sh_a s in
  let b := sh_b s in
  match d with
  | 0%nat => match k with
      | 0%nat => 2 / a * (bfp Bs i xi (sh_xu s) * bf Bs j eta (sh_yu s))
      | 2%nat => 2 / b * (bf Bs i xi (sh_xu s) * bfp Bs j eta (sh_yu s))
      | _ => 0 end
  | 1%nat => match k with
      | 1%nat => 2 / b * (bf Bs i xi (sh_xv s) * bfp Bs j eta (sh_yv s))
      | 2%nat => 2 / a * (bfp Bs i xi (sh_xv s) * bf Bs j eta (sh_yv s))
      | _ => 0 end
  | _ => match k with
      | 0%nat => wx * (2 / a * (bfp Bs i xi (sh_xw s) * bf Bs j eta (sh_yw s)))
      | 1%nat => kappa * (bf Bs i xi (sh_xw s) * bf Bs j eta (sh_yw s)) +
                 wy * (2 / b * (bf Bs i xi (sh_xw s) * bfp Bs j eta (sh_yw s)))
      | 2%nat => wx * (2 / b * (bf Bs i xi (sh_xw s) * bfp Bs j eta (sh_yw s))) +
                 wy * (2 / a * (bfp Bs i xi (sh_xw s) * bf Bs j eta (sh_yw s)))
      | 3%nat => - (2 / a * (2 / a) * (bfpp Bs i xi (sh_xw s) * bf Bs j eta (sh_yw s)))
      | 4%nat => - (2 / b * (2 / b) * (bf Bs i xi (sh_xw s) * bfpp Bs j eta (sh_yw s)))
      | 5%nat => - (2 * (2 / a * (2 / b) * (bfp Bs i xi (sh_xw s) * bfp Bs j eta (sh_yw s))))
      | _ => 0 end
  end.

Definition shift (o : nat) (c : nat -> R) : nat -> R := fun k => c (o + k)%nat.

Lemma ritz_shift o m n c d X Y :
  ritz m n (shift o c) d X Y =
  sumn n (fun j => sumn m (fun i => c (dofpos o m i j + d)%nat * (X i * Y j))).
Proof.
  unfold ritz, shift, dofpos, DOF. apply sumn_ext; intros j _. apply sumn_ext; intros i _.
  rewrite Nat.add_assoc. ring.
Qed.

(* sums of terms with one nonzero component *)
Lemma cfield_lin3 o m n c S S0 S1 S2 :
  (forall i j, (i < m)%nat -> (j < n)%nat -> S i j 0%nat = S0 i j) ->
  (forall i j, (i < m)%nat -> (j < n)%nat -> S i j 1%nat = S1 i j) ->
  (forall i j, (i < m)%nat -> (j < n)%nat -> S i j 2%nat = S2 i j) ->
  cfield o m n c S =
  sumn n (fun j => sumn m (fun i => c (dofpos o m i j + 0)%nat * S0 i j)) +
  sumn n (fun j => sumn m (fun i => c (dofpos o m i j + 1)%nat * S1 i j)) +
  sumn n (fun j => sumn m (fun i => c (dofpos o m i j + 2)%nat * S2 i j)).
Proof.
  intros H0 H1 H2. unfold cfield. rewrite dofsum_3.
  rewrite <- !sumn_plus. apply sumn_ext; intros j Hj.
  rewrite <- !sumn_plus. apply sumn_ext; intros i Hi.
  rewrite H0, H1, H2 by assumption. reflexivity.
Qed.

Lemma dsum_scal n m k g :
  sumn n (fun j => sumn m (fun i => k * g i j)) = k * sumn n (fun j => sumn m (fun i => g i j)).
Proof. rewrite <- sumn_scal. apply sumn_ext; intros j _. apply sumn_scal. Qed.

Lemma dsum_0 n m c o d (g : nat -> nat -> R) :
  (forall i j, g i j = 0) ->
  sumn n (fun j => sumn m (fun i => c (dofpos o m i j + d)%nat * g i j)) = 0.
Proof. intro H. apply sumn_0; intros j _. apply sumn_0; intros i _. rewrite H. ring. Qed.

Lemma dsum_lin2 n m o c d k1 k2 (g1 g2 : nat -> nat -> R) :
  sumn n (fun j => sumn m (fun i => c (dofpos o m i j + d)%nat * (k1 * g1 i j + k2 * g2 i j))) =
  k1 * sumn n (fun j => sumn m (fun i => c (dofpos o m i j + d)%nat * g1 i j)) +
  k2 * sumn n (fun j => sumn m (fun i => c (dofpos o m i j + d)%nat * g2 i j)).
Proof.
  rewrite <- !dsum_scal, <- sumn_plus. apply sumn_ext; intros j _.
  rewrite <- sumn_plus. apply sumn_ext; intros i _. ring.
Qed.

Lemma dsum_lin1 n m o c d k1 (g1 : nat -> nat -> R) :
  sumn n (fun j => sumn m (fun i => c (dofpos o m i j + d)%nat * (k1 * g1 i j))) =
  k1 * sumn n (fun j => sumn m (fun i => c (dofpos o m i j + d)%nat * g1 i j)).
Proof.
  rewrite <- !dsum_scal. apply sumn_ext; intros j _. apply sumn_ext; intros i _. ring.
Qed.

(* the field built from coefficients and the operator is the strain variation of the specification *)
Lemma cfield_Bop kappa Bs s o c v xi eta k :
  cfield o (sh_m s) (sh_n s) v
    (Bop kappa Bs s (d_wx Bs s (shift o c) xi eta) (d_wy Bs s (shift o c) xi eta) xi eta k) =
  dstrain kappa Bs s (shift o c) (shift o v) xi eta k.
Proof.
  unfold dstrain.
  generalize (d_wx Bs s (shift o c) xi eta) as wx. generalize (d_wy Bs s (shift o c) xi eta) as wy.
  intros wy wx.
  erewrite cfield_lin3; [|intros; unfold Bop; reflexivity..].
  unfold lin_strain, d_ux, d_uy, d_vx, d_vy, d_w, d_wx, d_wy, d_wxx, d_wyy, d_wxy, fld.
  rewrite !ritz_shift. cbn [shape xedge yedge].
  assert (Z : forall d, sumn (sh_n s) (fun j => sumn (sh_m s) (fun i => v (dofpos o (sh_m s) i j + d)%nat * 0)) = 0).
  { intro d. apply (dsum_0 (sh_n s) (sh_m s) v o d (fun _ _ => 0)). reflexivity. }
  destruct k as [|[|[|[|[|[|k]]]]]]; rewrite ?Z.
  - rewrite !(dsum_lin1 _ _ _ _ _ (2 / sh_a s)). rewrite (dsum_lin1 _ _ _ _ _ wx), (dsum_lin1 _ _ _ _ _ (2 / sh_a s)).
    ring.
  - rewrite !(dsum_lin1 _ _ _ _ _ (2 / sh_b s)). rewrite (dsum_lin2 _ _ _ _ _ kappa wy), (dsum_lin1 _ _ _ _ _ (2 / sh_b s)).
    ring.
  - rewrite !(dsum_lin1 _ _ _ _ _ (2 / sh_b s)), !(dsum_lin1 _ _ _ _ _ (2 / sh_a s)).
    rewrite (dsum_lin2 _ _ _ _ _ wx wy), (dsum_lin1 _ _ _ _ _ (2 / sh_b s)), (dsum_lin1 _ _ _ _ _ (2 / sh_a s)).
    ring.
  - erewrite sumn_ext; [|intros j _; apply sumn_ext; intros i _;
      replace (_ * - _) with (v (dofpos o (sh_m s) i j + 2)%nat * (-(2 / sh_a s * (2 / sh_a s)) *
        (bfpp Bs i xi (sh_xw s) * bf Bs j eta (sh_yw s)))) by ring; reflexivity].
    rewrite (dsum_lin1 _ _ _ _ _ (-(2 / sh_a s * (2 / sh_a s)))). ring.
  - erewrite sumn_ext; [|intros j _; apply sumn_ext; intros i _;
      replace (_ * - _) with (v (dofpos o (sh_m s) i j + 2)%nat * (-(2 / sh_b s * (2 / sh_b s)) *
        (bf Bs i xi (sh_xw s) * bfpp Bs j eta (sh_yw s)))) by ring; reflexivity].
    rewrite (dsum_lin1 _ _ _ _ _ (-(2 / sh_b s * (2 / sh_b s)))). ring.
  - erewrite sumn_ext; [|intros j _; apply sumn_ext; intros i _;
      replace (_ * - _) with (v (dofpos o (sh_m s) i j + 2)%nat * (-(2 * (2 / sh_a s * (2 / sh_b s))) *
        (bfp Bs i xi (sh_xw s) * bfp Bs j eta (sh_yw s)))) by ring; reflexivity].
    rewrite (dsum_lin1 _ _ _ _ _ (-(2 * (2 / sh_a s * (2 / sh_b s))))). ring.
  - ring.
Qed.

(* laminate matrices: rewriting to the entries that are read *)
Definition Fsym (F : nat -> nat -> R) (i j : nat) : R :=
  match i, j with
  | 0%nat, 0%nat => F 0%nat 0%nat
  | 0%nat, 1%nat => F 0%nat 1%nat
  | 1%nat, 0%nat => F 0%nat 1%nat
  | 0%nat, 2%nat => F 0%nat 2%nat
  | 2%nat, 0%nat => F 0%nat 2%nat
  | 1%nat, 1%nat => F 1%nat 1%nat
  | 1%nat, 2%nat => F 1%nat 2%nat
  | 2%nat, 1%nat => F 1%nat 2%nat
  | 2%nat, 2%nat => F 2%nat 2%nat
  | 0%nat, 3%nat => F 0%nat 3%nat
  | 3%nat, 0%nat => F 0%nat 3%nat
  | 0%nat, 4%nat => F 0%nat 4%nat
  | 4%nat, 0%nat => F 0%nat 4%nat
  | 1%nat, 3%nat => F 0%nat 4%nat
  | 3%nat, 1%nat => F 0%nat 4%nat
  | 0%nat, 5%nat => F 0%nat 5%nat
  | 5%nat, 0%nat => F 0%nat 5%nat
  | 2%nat, 3%nat => F 0%nat 5%nat
  | 3%nat, 2%nat => F 0%nat 5%nat
  | 1%nat, 4%nat => F 1%nat 4%nat
  | 4%nat, 1%nat => F 1%nat 4%nat
  | 1%nat, 5%nat => F 1%nat 5%nat
  | 5%nat, 1%nat => F 1%nat 5%nat
  | 2%nat, 4%nat => F 1%nat 5%nat
  | 4%nat, 2%nat => F 1%nat 5%nat
  | 2%nat, 5%nat => F 2%nat 5%nat
  | 5%nat, 2%nat => F 2%nat 5%nat
  | 3%nat, 3%nat => F 3%nat 3%nat
  | 3%nat, 4%nat => F 3%nat 4%nat
  | 4%nat, 3%nat => F 3%nat 4%nat
  | 3%nat, 5%nat => F 3%nat 5%nat
  | 5%nat, 3%nat => F 3%nat 5%nat
  | 4%nat, 4%nat => F 4%nat 4%nat
  | 4%nat, 5%nat => F 4%nat 5%nat
  | 5%nat, 4%nat => F 4%nat 5%nat
  | 5%nat, 5%nat => F 5%nat 5%nat
  | _, _ => 0
  end.

Lemma Fsym_sym F i j : Fsym F i j = Fsym F j i.
Proof.
  destruct i as [|[|[|[|[|[|i]]]]]]; destruct j as [|[|[|[|[|[|j]]]]]]; reflexivity.
Qed.

Lemma Fsym_ABD F : is_ABD F -> forall i j, (i < 6)%nat -> (j < 6)%nat -> Fsym F i j = F i j.
Proof.
  intros [H1 H2] i j Hi Hj.
  assert (L : forall k, (k < 3)%nat -> k = 0%nat \/ k = 1%nat \/ k = 2%nat) by lia.
  assert (B10 := H2 1%nat 0%nat ltac:(lia) ltac:(lia)). assert (B20 := H2 2%nat 0%nat ltac:(lia) ltac:(lia)).
  assert (B21 := H2 2%nat 1%nat ltac:(lia) ltac:(lia)). cbn [Nat.add] in *.
  do 6 (destruct i as [|i]; [do 6 (destruct j as [|j]; [cbn [Fsym];
    first [reflexivity | congruence
      | apply H1; lia
      | rewrite H1 by lia; congruence
      | match goal with |- ?x = _ => rewrite (H1 _ _ Hi Hj) end; congruence ]|]); lia|]). lia.
Qed.

Lemma form_ext n M M' x x' y y' :
  (forall i j, (i < n)%nat -> (j < n)%nat -> M i j = M' i j) ->
  (forall i, (i < n)%nat -> x i = x' i) -> (forall i, (i < n)%nat -> y i = y' i) ->
  form n M x y = form n M' x' y'.
Proof.
  intros HM Hx Hy. unfold form. apply sumn_ext; intros i Hi. apply sumn_ext; intros j Hj.
  rewrite HM, Hx, Hy by assumption. reflexivity.
Qed.

Lemma form_Fsym F x y : is_ABD F -> form 6 (Fsym F) x y = form 6 F x y.
Proof. intro H. apply form_ext; auto. intros. apply Fsym_ABD; assumption. Qed.

Lemma lt3 d : (d < DOF)%nat -> d = 0%nat \/ d = 1%nat \/ d = 2%nat.
Proof. unfold DOF. lia. Qed.

Lemma plate_fkC_loc Bs s F xi eta w intx inty wxi weta i k j l d e :
  sh_a s <> 0 -> sh_b s <> 0 -> (d < DOF)%nat -> (e < DOF)%nat ->
  loc (plate_fkC_num_ker Bs s F xi eta w intx inty wxi weta i k j l) d e =
  w * (intx * inty / 4) * sumn 6 (fun p => sumn 6 (fun q => Fsym F p q *
    Bop 0 Bs s (2 / sh_a s * wxi) (2 / sh_b s * weta) xi eta p i j d *
    Bop 0 Bs s (2 / sh_a s * wxi) (2 / sh_b s * weta) xi eta q k l e)).
Proof.
  intros Ha Hb Hd He.
  destruct (lt3 d Hd) as [->|[->| ->]]; destruct (lt3 e He) as [->|[->| ->]];
    unfold plate_fkC_num_ker, loc; cbv zeta; cbn [suml Nat.eqb andb];
    cbn [sumn Fsym Bop]; field; auto.
Qed.

Lemma cyl_fkC_loc Bs s F xi eta w intx inty wxi weta i k j l d e :
  sh_a s <> 0 -> sh_b s <> 0 -> sh_r s <> 0 -> (d < DOF)%nat -> (e < DOF)%nat ->
  loc (cyl_fkC_num_ker Bs s F xi eta w intx inty wxi weta i k j l) d e =
  w * (intx * inty / 4) * sumn 6 (fun p => sumn 6 (fun q => Fsym F p q *
    Bop (1 / sh_r s) Bs s (2 / sh_a s * wxi) (2 / sh_b s * weta) xi eta p i j d *
    Bop (1 / sh_r s) Bs s (2 / sh_a s * wxi) (2 / sh_b s * weta) xi eta q k l e)).
Proof.
  intros Ha Hb Hr Hd He.
  destruct (lt3 d Hd) as [->|[->| ->]]; destruct (lt3 e He) as [->|[->| ->]];
    unfold cyl_fkC_num_ker, loc; cbv zeta; cbn [suml Nat.eqb andb];
    cbn [sumn Fsym Bop]; field; auto.
Qed.

(* slope operators for kG: rows 0, 1 are w,x and w,y *)
Definition Gop (Bs : basis) (s : shell) (xi eta : R) (k i j d : nat) : R :=
  match d with
  | 2%nat => match k with
     | 0%nat => 2 / sh_a s * (bfp Bs i xi (sh_xw s) * bf Bs j eta (sh_yw s))
     | 1%nat => 2 / sh_b s * (bf Bs i xi (sh_xw s) * bfp Bs j eta (sh_yw s))
     | _ => 0 end
  | _ => 0
  end.

(* membrane force tensor *)
Definition Nmat (Nxx Nyy Nxy : R) (i j : nat) : R :=
  match i, j with 0%nat, 0%nat => Nxx | 1%nat, 1%nat => Nyy | 0%nat, 1%nat => Nxy | 1%nat, 0%nat => Nxy | _, _ => 0 end.

Lemma plate_fkG_loc Bs s xi eta w intx inty Nxx Nyy Nxy i k j l d e :
  sh_a s <> 0 -> sh_b s <> 0 -> (d < DOF)%nat -> (e < DOF)%nat ->
  loc (plate_fkG_num_ker Bs s xi eta w intx inty Nxx Nyy Nxy i k j l) d e =
  w * (intx * inty / 4) * sumn 2 (fun p => sumn 2 (fun q => Nmat Nxx Nyy Nxy p q *
    Gop Bs s xi eta p i j d * Gop Bs s xi eta q k l e)).
Proof.
  intros Ha Hb Hd He.
  destruct (lt3 d Hd) as [->|[->| ->]]; destruct (lt3 e He) as [->|[->| ->]];
    unfold plate_fkG_num_ker, loc; cbv zeta; cbn [suml Nat.eqb andb];
    cbn [sumn Nmat Gop]; field; auto.
Qed.
Lemma cyl_fkG_loc Bs s xi eta w intx inty Nxx Nyy Nxy i k j l d e :
  sh_a s <> 0 -> sh_b s <> 0 -> (d < DOF)%nat -> (e < DOF)%nat ->
  loc (cyl_fkG_num_ker Bs s xi eta w intx inty Nxx Nyy Nxy i k j l) d e =
  w * (intx * inty / 4) * sumn 2 (fun p => sumn 2 (fun q => Nmat Nxx Nyy Nxy p q *
    Gop Bs s xi eta p i j d * Gop Bs s xi eta q k l e)).
Proof.
  intros Ha Hb Hd He.
  destruct (lt3 d Hd) as [->|[->| ->]]; destruct (lt3 e He) as [->|[->| ->]];
    unfold cyl_fkG_num_ker, loc; cbv zeta; cbn [suml Nat.eqb andb];
    cbn [sumn Nmat Gop]; field; auto.
Qed.

(* mass: rows u + d w,x ; v + d w,y ; w ; w,x ; w,y *)
Definition Mop (Bs : basis) (s : shell) (off xi eta : R) (k i j d : nat) : R :=
  let wx := 2 / sh_a s * (bfp Bs i xi (sh_xw s) * bf Bs j eta (sh_yw s)) in
  let wy := 2 / sh_b s * (bf Bs i xi (sh_xw s) * bfp Bs j eta (sh_yw s)) in
  match d with
  | 0%nat => match k with 0%nat => bf Bs i xi (sh_xu s) * bf Bs j eta (sh_yu s) | _ => 0 end
  | 1%nat => match k with 1%nat => bf Bs i xi (sh_xv s) * bf Bs j eta (sh_yv s) | _ => 0 end
  | _ => match k with
     | 0%nat => off * wx
     | 1%nat => off * wy
     | 2%nat => bf Bs i xi (sh_xw s) * bf Bs j eta (sh_yw s)
     | 3%nat => wx
     | 4%nat => wy
     | _ => 0 end
  end.

(* rotary inertia factor written in the source: 0.0833333333333333 *)
Definition twelfth : R := 833333333333333 / 10000000000000000.
Definition Mmat (h rho : R) (i j : nat) : R :=
  match i, j with
  | 0%nat, 0%nat | 1%nat, 1%nat | 2%nat, 2%nat => rho * h
  | 3%nat, 3%nat | 4%nat, 4%nat => rho * h * (h * h * twelfth)
  | _, _ => 0 end.

Lemma plate_fkM_loc Bs s xi eta w intx inty h rho off i k j l d e :
  sh_a s <> 0 -> sh_b s <> 0 -> (d < DOF)%nat -> (e < DOF)%nat ->
  loc (plate_fkM_num_ker Bs s xi eta w intx inty h rho off i k j l) d e =
  w * (intx * inty / 4) * sumn 5 (fun p => sumn 5 (fun q => Mmat h rho p q *
    Mop Bs s off xi eta p i j d * Mop Bs s off xi eta q k l e)).
Proof.
  intros Ha Hb Hd He.
  destruct (lt3 d Hd) as [->|[->| ->]]; destruct (lt3 e He) as [->|[->| ->]];
    unfold plate_fkM_num_ker, loc; cbv zeta; cbn [suml Nat.eqb andb];
    cbn [sumn Mmat Mop]; unfold twelfth; field; auto.
Qed.

(* ---------------------------------------------- accumulated Gram matrices, any loop order *)
Definition gramV {P} (pts : list P) (W : P -> R) (q : nat) (M : P -> nat -> nat -> R)
   (S : P -> nat -> nat -> nat -> nat -> R) (i k j l d e : nat) : R :=
  suml pts (fun x => W x * sumn q (fun a => sumn q (fun b => M x a b * S x a i j d * S x b k l e))).

Lemma gramV_sym {P} (pts : list P) W q M S i k j l d e :
  (forall x a b, In x pts -> (a < q)%nat -> (b < q)%nat -> M x a b = M x b a) ->
  gramV pts W q M S i k j l d e = gramV pts W q M S k i l j e d.
Proof.
  intro HM. unfold gramV. apply suml_ext; intros x Hx. f_equal.
  rewrite sumn_swap. apply sumn_ext; intros a Ha. apply sumn_ext; intros b Hb.
  rewrite (HM x b a) by assumption. ring.
Qed.

Definition uniform {P} (ker : P -> nat -> nat -> nat -> nat -> block) : Prop :=
  (forall x i k j l, wf_block (ker x i k j l)) /\
  (forall x y i k j l, map fst (ker x i k j l) = map fst (ker y i k j l)).

Lemma gram_dense_ikjl {P} (pts : list P) W q M S o m n (ker : P -> nat -> nat -> nat -> nat -> block) :
  uniform ker ->
  (forall x i k j l d e, In x pts -> (d < DOF)%nat -> (e < DOF)%nat ->
     loc (ker x i k j l) d e = W x * sumn q (fun a => sumn q (fun b => M x a b * S x a i j d * S x b k l e))) ->
  forall r s,
  dense (accumulate pts (fun p => loop_ikjl true o o m n m n (ker p))) r s =
  if (inblk o m n r && inblk o m n s)%bool then
     if skipped true o o m m (ix o m r) (ix o m s) (jx o m r) (jx o m s) then 0
     else gramV pts W q M S (ix o m r) (ix o m s) (jx o m r) (jx o m s) (cx o r) (cx o s) else 0.
Proof.
  intros [Hwf Hpos] Hloc r s. rewrite dense_accumulate
    by (intros; apply map_fst_ikjl; intros; apply Hpos).
  rewrite (suml_ext pts _ (fun p => loop_value true o o m n m n (ker p) r s))
    by (intros; apply dense_ikjl; apply Hwf).
  unfold loop_value. destruct (inblk o m n r && inblk o m n s)%bool eqn:E; [|apply suml_0; reflexivity].
  apply andb_true_iff in E. destruct E as [Er Es].
  destruct (inblk_bounds _ _ _ _ Er) as (_ & _ & Hc & _). destruct (inblk_bounds _ _ _ _ Es) as (_ & _ & Hc' & _).
  destruct (skipped _ _ _ _ _ _ _ _ _); [apply suml_0; reflexivity|].
  unfold gramV. apply suml_ext; intros x Hx. apply Hloc; assumption.
Qed.

Lemma gram_dense_jlik {P} (pts : list P) W q M S o m n (ker : P -> nat -> nat -> nat -> nat -> block) :
  uniform ker ->
  (forall x i k j l d e, In x pts -> (d < DOF)%nat -> (e < DOF)%nat ->
     loc (ker x i k j l) d e = W x * sumn q (fun a => sumn q (fun b => M x a b * S x a i j d * S x b k l e))) ->
  forall r s,
  dense (accumulate pts (fun p => loop_jlik true o o m n m n (ker p))) r s =
  if (inblk o m n r && inblk o m n s)%bool then
     if skipped true o o m m (ix o m r) (ix o m s) (jx o m r) (jx o m s) then 0
     else gramV pts W q M S (ix o m r) (ix o m s) (jx o m r) (jx o m s) (cx o r) (cx o s) else 0.
Proof.
  intros [Hwf Hpos] Hloc r s. rewrite dense_accumulate
    by (intros; apply map_fst_jlik; intros; apply Hpos).
  rewrite (suml_ext pts _ (fun p => loop_value true o o m n m n (ker p) r s))
    by (intros; apply dense_jlik; apply Hwf).
  unfold loop_value. destruct (inblk o m n r && inblk o m n s)%bool eqn:E; [|apply suml_0; reflexivity].
  apply andb_true_iff in E. destruct E as [Er Es].
  destruct (inblk_bounds _ _ _ _ Er) as (_ & _ & Hc & _). destruct (inblk_bounds _ _ _ _ Es) as (_ & _ & Hc' & _).
  destruct (skipped _ _ _ _ _ _ _ _ _); [apply suml_0; reflexivity|].
  unfold gramV. apply suml_ext; intros x Hx. apply Hloc; assumption.
Qed.

(* what finalize_symmetric gives, and the bilinear form *)
Lemma gram_final {P} (pts : list P) W q M S o m n K :
  (forall x a b, In x pts -> (a < q)%nat -> (b < q)%nat -> M x a b = M x b a) ->
  (forall r s, K r s = if (inblk o m n r && inblk o m n s)%bool then
     if skipped true o o m m (ix o m r) (ix o m s) (jx o m r) (jx o m s) then 0
     else gramV pts W q M S (ix o m r) (ix o m s) (jx o m r) (jx o m s) (cx o r) (cx o s) else 0) ->
  forall r s, finalize_symmetric K r s = fullmat o m n (gramV pts W q M S) r s.
Proof.
  intros HM HK. apply finalize_full; [|exact HK].
  intros. apply gramV_sym; assumption.
Qed.

Lemma bilinear_ext N K K' c d : (forall r s, K r s = K' r s) -> bilinear N K c d = bilinear N K' c d.
Proof.
  intro H. unfold bilinear. apply sumn_ext; intros. apply sumn_ext; intros. rewrite H. reflexivity.
Qed.

Lemma gram_final_bilinear {P} (pts : list P) W q M S o m n K N c d :
  (o + DOF * (n * m) <= N)%nat ->
  (forall x a b, In x pts -> (a < q)%nat -> (b < q)%nat -> M x a b = M x b a) ->
  (forall r s, K r s = if (inblk o m n r && inblk o m n s)%bool then
     if skipped true o o m m (ix o m r) (ix o m s) (jx o m r) (jx o m s) then 0
     else gramV pts W q M S (ix o m r) (ix o m s) (jx o m r) (jx o m s) (cx o r) (cx o s) else 0) ->
  bilinear N (finalize_symmetric K) c d =
  suml pts (fun x => W x * form q (M x) (fun a => cfield o m n c (S x a)) (fun b => cfield o m n d (S x b))).
Proof.
  intros HN HM HK. rewrite (bilinear_ext N _ (fullmat o m n (gramV pts W q M S)))
    by (intros; apply gram_final; assumption).
  apply gram_bilinear; [exact HN|]. intros. reflexivity.
Qed.

(* symmetry and support after finalize_symmetric *)
Lemma finalize_symmetric_sym K : symmetric (finalize_symmetric K).
Proof.
  intros r s. unfold finalize_symmetric. destruct (Nat.leb_spec r s); destruct (Nat.leb_spec s r); try reflexivity; try lia.
  assert (r = s) by lia. subst. reflexivity.
Qed.

(* ---------------------------------------------- uniformity of the numeric kernels *)
Ltac solve_uniform :=
  split; [ intros; unfold wf_block; intros; cbn in *; 
           repeat match goal with H : _ \/ _ |- _ => destruct H as [H|H] end;
           try contradiction; match goal with H : (_, _, _) = _ |- _ => inversion H; subst end; unfold DOF; lia
         | intros; reflexivity ].

Lemma uniform_plate_kC {P} Bs s (F : P -> nat -> nat -> R) (a1 a2 a3 a4 a5 a6 a7 : P -> R) :
  uniform (fun p => plate_fkC_num_ker Bs s (F p) (a1 p) (a2 p) (a3 p) (a4 p) (a5 p) (a6 p) (a7 p)).
Proof. solve_uniform. Qed.
Lemma uniform_cyl_kC {P} Bs s (F : P -> nat -> nat -> R) (a1 a2 a3 a4 a5 a6 a7 : P -> R) :
  uniform (fun p => cyl_fkC_num_ker Bs s (F p) (a1 p) (a2 p) (a3 p) (a4 p) (a5 p) (a6 p) (a7 p)).
Proof. solve_uniform. Qed.
Lemma uniform_plate_kG {P} Bs s (a1 a2 a3 a4 a5 a6 a7 a8 : P -> R) :
  uniform (fun p => plate_fkG_num_ker Bs s (a1 p) (a2 p) (a3 p) (a4 p) (a5 p) (a6 p) (a7 p) (a8 p)).
Proof. solve_uniform. Qed.
Lemma uniform_cyl_kG {P} Bs s (a1 a2 a3 a4 a5 a6 a7 a8 : P -> R) :
  uniform (fun p => cyl_fkG_num_ker Bs s (a1 p) (a2 p) (a3 p) (a4 p) (a5 p) (a6 p) (a7 p) (a8 p)).
Proof. solve_uniform. Qed.
Lemma uniform_plate_kM {P} Bs s (a1 a2 a3 a4 a5 a6 a7 : P -> R) off :
  uniform (fun p => plate_fkM_num_ker Bs s (a1 p) (a2 p) (a3 p) (a4 p) (a5 p) (a6 p) (a7 p) off).
Proof. solve_uniform. Qed.
Lemma uniform_plate_kAx {P} Bs s (a1 a2 a3 a4 a5 : P -> R) :
  uniform (fun p => plate_fkAx_num_ker Bs s (a1 p) (a2 p) (a3 p) (a4 p) (a5 p)).
Proof. solve_uniform. Qed.
Lemma uniform_plate_kAy {P} Bs s (a1 a2 a3 a4 a5 : P -> R) :
  uniform (fun p => plate_fkAy_num_ker Bs s (a1 p) (a2 p) (a3 p) (a4 p) (a5 p)).
Proof. solve_uniform. Qed.
Lemma uniform_cyl_kAx {P} Bs s (a1 a2 a3 a4 a5 : P -> R) :
  uniform (fun p => cyl_fkAx_num_ker Bs s (a1 p) (a2 p) (a3 p) (a4 p) (a5 p)).
Proof. solve_uniform. Qed.
