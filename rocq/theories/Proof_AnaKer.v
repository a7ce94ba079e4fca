(* The closed-form matrices as Gram matrices: entries are sums of products of one table entry in x
   and one in y. *)
From Coq Require Import Reals List Arith Bool Lia Lra.
From Verif Require Import Base_Sum Model_Types Model_Coo Model_PlateAna Model_CylAna
  Model_Num Model_DB Spec_Algebra Spec_Kinematics Spec_Quadrature Spec_Panel Proof_Coo Proof_Num Proof_Energy Proof_Total.
Import ListNotations.
Open Scope R_scope.

(* table of the products of derivatives p and q *)
Definition tab (T : tables) (p q i k : nat) (e e' : edge) : R :=
  match p, q with
  | 0%nat, 0%nat => t_ff T i k e e'
  | 0%nat, 1%nat => t_ffp T i k e e'
  | 0%nat, _ => t_ffpp T i k e e'
  | 1%nat, 0%nat => t_ffp T k i e' e
  | 1%nat, 1%nat => t_fpfp T i k e e'
  | 1%nat, _ => t_fpfpp T i k e e'
  | _, 0%nat => t_ffpp T k i e' e
  | _, 1%nat => t_fpfpp T k i e' e
  | _, _ => t_fppfpp T i k e e'
  end.

(* operators whose entry (row, component) is factor * d^p/dxi^p f_i * d^q/deta^q g_j *)
Definition sop := nat -> nat -> R * (nat * nat).
Definition S_of (op : sop) (Bs : basis) (s : shell) (xi eta : R) (a i j d : nat) : R :=
  let '(beta, (p, q)) := op a d in
  beta * (shape Bs p i xi (xedge s d) * shape Bs q j eta (yedge s d)).

(* one-dimensional integrals of products: derivative orders, function numbers, flags *)
Definition one_d := nat -> nat -> nat -> nat -> edge -> edge -> R.

Definition V_gen (tx ty : one_d) (s : shell) (J : R) (q : nat) (M : nat -> nat -> R) (op : sop) (i k j l d e : nat) : R :=
  J * sumn q (fun a => sumn q (fun b =>
    let '(ba, (pa, qa)) := op a d in
    let '(bb, (pb, qb)) := op b e in
    M a b * (ba * bb) * (tx pa pb i k (xedge s d) (xedge s e) * ty qa qb j l (yedge s d) (yedge s e)))).
Definition V_ana (T : tables) := V_gen (tab T) (tab T).

Definition opB (kappa : R) (s : shell) : sop := fun k d =>
  let a := sh_a s in let b := sh_b s in
  match d with
  | 0%nat => match k with 0%nat => (2 / a, (1%nat, 0%nat)) | 2%nat => (2 / b, (0%nat, 1%nat)) | _ => (0, (0%nat, 0%nat)) end
  | 1%nat => match k with 1%nat => (2 / b, (0%nat, 1%nat)) | 2%nat => (2 / a, (1%nat, 0%nat)) | _ => (0, (0%nat, 0%nat)) end
  | _ => match k with
         | 1%nat => (kappa, (0%nat, 0%nat))
         | 3%nat => (- (2 / a * (2 / a)), (2%nat, 0%nat))
         | 4%nat => (- (2 / b * (2 / b)), (0%nat, 2%nat))
         | 5%nat => (- (2 * (2 / a * (2 / b))), (1%nat, 1%nat))
         | _ => (0, (0%nat, 0%nat)) end
  end.
Definition opG (s : shell) : sop := fun k d =>
  match d with
  | 2%nat => match k with 0%nat => (2 / sh_a s, (1%nat, 0%nat)) | 1%nat => (2 / sh_b s, (0%nat, 1%nat)) | _ => (0, (0%nat, 0%nat)) end
  | _ => (0, (0%nat, 0%nat))
  end.
Definition opM (off : R) (s : shell) : sop := fun k d =>
  match d with
  | 0%nat => match k with 0%nat => (1, (0%nat, 0%nat)) | _ => (0, (0%nat, 0%nat)) end
  | 1%nat => match k with 1%nat => (1, (0%nat, 0%nat)) | _ => (0, (0%nat, 0%nat)) end
  | _ => match k with
     | 0%nat => (off * (2 / sh_a s), (1%nat, 0%nat))
     | 1%nat => (off * (2 / sh_b s), (0%nat, 1%nat))
     | 2%nat => (1, (0%nat, 0%nat))
     | 3%nat => (2 / sh_a s, (1%nat, 0%nat))
     | 4%nat => (2 / sh_b s, (0%nat, 1%nat))
     | _ => (0, (0%nat, 0%nat)) end
  end.

Lemma S_opB kappa Bs s xi eta k i j d : (d < DOF)%nat -> (k < 6)%nat ->
  S_of (opB kappa s) Bs s xi eta k i j d = Bop kappa Bs s 0 0 xi eta k i j d.
Proof.
  intros Hd Hk. destruct (lt3 d Hd) as [->|[->| ->]];
  do 6 (destruct k as [|k]; [unfold S_of, opB, Bop, xedge, yedge, shape; ring|]); lia.
Qed.
Lemma S_opG Bs s xi eta k i j d : (d < DOF)%nat -> (k < 2)%nat ->
  S_of (opG s) Bs s xi eta k i j d = Gop Bs s xi eta k i j d.
Proof.
  intros Hd Hk. destruct (lt3 d Hd) as [->|[->| ->]];
  do 2 (destruct k as [|k]; [unfold S_of, opG, Gop, xedge, yedge, shape; ring|]); lia.
Qed.
Lemma S_opM off Bs s xi eta k i j d : (d < DOF)%nat -> (k < 5)%nat ->
  S_of (opM off s) Bs s xi eta k i j d = Mop Bs s off xi eta k i j d.
Proof.
  intros Hd Hk. destruct (lt3 d Hd) as [->|[->| ->]];
  do 5 (destruct k as [|k]; [unfold S_of, opM, Mop, xedge, yedge, shape; ring|]); lia.
Qed.

(* ------------------------------------------------- kernels *)
Ltac ana := intros; match goal with Hd : (?d < DOF)%nat, He : (?e < DOF)%nat |- loc _ ?d ?e = _ =>
    destruct (lt3 d Hd) as [->|[->| ->]]; destruct (lt3 e He) as [->|[->| ->]] end.
Lemma plate_fk0_loc T s F i k j l d e :
  sh_a s <> 0 -> sh_b s <> 0 -> (d < DOF)%nat -> (e < DOF)%nat ->
  loc (plate_fk0_ker T s F i k j l) d e = V_ana T s (sh_a s * sh_b s / 4) 6 (Fsym F) (opB 0 s) i k j l d e.
Proof.
  ana; unfold plate_fk0_ker, loc; cbv zeta; cbn [suml Nat.eqb andb];
    unfold V_ana, V_gen; cbn [sumn Fsym opB tab xedge yedge]; field; auto.
Qed.
Lemma cyl_fk0_loc T s F i k j l d e :
  sh_a s <> 0 -> sh_b s <> 0 -> sh_r s <> 0 -> (d < DOF)%nat -> (e < DOF)%nat ->
  loc (cyl_fk0_ker T s F i k j l) d e = V_ana T s (sh_a s * sh_b s / 4) 6 (Fsym F) (opB (1 / sh_r s) s) i k j l d e.
Proof.
  ana; unfold cyl_fk0_ker, loc; cbv zeta; cbn [suml Nat.eqb andb];
    unfold V_ana, V_gen; cbn [sumn Fsym opB tab xedge yedge]; field; auto.
Qed.
Lemma plate_fkG0_loc T s Nxx Nyy Nxy i k j l d e :
  sh_a s <> 0 -> sh_b s <> 0 -> (d < DOF)%nat -> (e < DOF)%nat ->
  loc (plate_fkG0_ker T s Nxx Nyy Nxy i k j l) d e = V_ana T s (sh_a s * sh_b s / 4) 2 (Nmat Nxx Nyy Nxy) (opG s) i k j l d e.
Proof.
  ana; unfold plate_fkG0_ker, loc; cbv zeta; cbn [suml Nat.eqb andb];
    unfold V_ana, V_gen; cbn [sumn Nmat opG tab xedge yedge]; field; auto.
Qed.
Lemma cyl_fkG0_loc T s Nxx Nyy Nxy i k j l d e :
  sh_a s <> 0 -> sh_b s <> 0 -> (d < DOF)%nat -> (e < DOF)%nat ->
  loc (cyl_fkG0_ker T s Nxx Nyy Nxy i k j l) d e = V_ana T s (sh_a s * sh_b s / 4) 2 (Nmat Nxx Nyy Nxy) (opG s) i k j l d e.
Proof.
  ana; unfold cyl_fkG0_ker, loc; cbv zeta; cbn [suml Nat.eqb andb];
    unfold V_ana, V_gen; cbn [sumn Nmat opG tab xedge yedge]; field; auto.
Qed.
Lemma plate_fkM_loc' T s rho h off i k j l d e :
  sh_a s <> 0 -> sh_b s <> 0 -> (d < DOF)%nat -> (e < DOF)%nat ->
  loc (plate_fkM_ker T s rho h off i k j l) d e = V_ana T s (sh_a s * sh_b s / 4) 5 (Mmat h rho) (opM off s) i k j l d e.
Proof.
  ana; unfold plate_fkM_ker, loc; cbv zeta; cbn [suml Nat.eqb andb];
    unfold V_ana, V_gen; cbn [sumn Mmat opM tab xedge yedge]; unfold twelfth; field; auto.
Qed.
Lemma cyl_fkM_loc' T s rho h off i k j l d e :
  sh_a s <> 0 -> sh_b s <> 0 -> (d < DOF)%nat -> (e < DOF)%nat ->
  loc (cyl_fkM_ker T s rho h off i k j l) d e = V_ana T s (sh_a s * sh_b s / 4) 5 (Mmat h rho) (opM off s) i k j l d e.
Proof.
  ana; unfold cyl_fkM_ker, loc; cbv zeta; cbn [suml Nat.eqb andb];
    unfold V_ana, V_gen; cbn [sumn Mmat opM tab xedge yedge]; unfold twelfth; field; auto.
Qed.
