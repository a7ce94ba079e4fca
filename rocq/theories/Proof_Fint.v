(* Internal force vector: virtual work, relation with the stiffness matrices. *)
From Coq Require Import Reals List Arith Bool Lia Lra.
From Coquelicot Require Import Coquelicot.
From Verif Require Import Base_Sum Model_Types Model_Coo Model_Result Model_PlateNumKer Model_CylNumKer Model_Num Model_DB Model_Shell
  Spec_Algebra Spec_Kinematics Spec_Quadrature Spec_Panel Spec_Shell
  Proof_Coo Proof_Num Proof_Energy Proof_Shell Proof_Total Proof_Api.
Import ListNotations.
Open Scope R_scope.

Lemma vdense_dot N u v : (forall t, In t u -> (fst t < N)%nat) ->
  dot N (vdense u) v = suml u (fun t => snd t * v (fst t)).
Proof.
  intro H. unfold dot, vdense. induction u as [|t u IH]; cbn [suml].
  - apply sumn_0; intros; ring.
  - rewrite <- IH by (intros; apply H; right; assumption).
    rewrite (sumn_ext N _ (fun i => (if (i =? fst t)%nat then snd t * v i else 0) +
      suml u (fun x => if (fst x =? i)%nat then snd x else 0) * v i)).
    + rewrite sumn_plus, sumn_single. destruct (Nat.ltb_spec (fst t) N); [reflexivity|].
      exfalso. specialize (H t (or_introl eq_refl)). lia.
    + intros i _. rewrite (Nat.eqb_sym i). destruct (fst t =? i)%nat; ring.
Qed.

Definition fint_ker (mdl : model) := match mdl with PlateModel => plate_calc_fint_ker | CylModel => cyl_calc_fint_ker end.
Definition loc1 (l : list (nat * R)) (d : nat) : R := suml l (fun t => if (fst t =? d)%nat then snd t else 0).

Lemma fint_ker_Bop mdl Bs s xi eta w ix iy wxi weta (N : nat -> R) i j d : geometry_ok mdl s -> (d < DOF)%nat ->
  loc1 (fint_ker mdl Bs s xi eta w ix iy wxi weta (N 0%nat) (N 1%nat) (N 2%nat) (N 3%nat) (N 4%nat) (N 5%nat) i j) d =
  w * (ix * iy / 4) * sumn 6 (fun k => N k * Bop (curvature mdl s) Bs s (2 / sh_a s * wxi) (2 / sh_b s * weta) xi eta k i j d).
Proof.
  intros (Ha & Hb & Hr) Hd. destruct mdl; cbn [fint_ker curvature];
    (destruct d as [|[|[|d]]]; [| | |exfalso; unfold DOF in Hd; lia]);
    unfold plate_calc_fint_ker, cyl_calc_fint_ker, loc1; cbv zeta; cbn [suml fst snd Nat.eqb sumn Bop]; field; auto.
Qed.

Lemma fint_ker_dofs mdl Bs s xi eta w ix iy wxi weta N0 N1 N2 N3 N4 N5 i j t :
  In t (fint_ker mdl Bs s xi eta w ix iy wxi weta N0 N1 N2 N3 N4 N5 i j) -> (fst t < DOF)%nat.
Proof.
  destruct mdl; cbn [fint_ker]; unfold plate_calc_fint_ker, cyl_calc_fint_ker; cbv zeta; cbn [In]; unfold DOF;
  intros [<-|[<-|[<-|[]]]]; cbn [fst]; lia.
Qed.

Lemma suml_loc1 (l : list (nat * R)) (v : nat -> R) : (forall t, In t l -> (fst t < DOF)%nat) ->
  suml l (fun t => snd t * v (fst t)) = sumn DOF (fun d => v d * loc1 l d).
Proof.
  intro H. rewrite <- (vdense_dot DOF l v H). unfold dot. apply sumn_ext; intros. unfold vdense, loc1. ring.
Qed.

(* stress resultants used by calc_fint *)
Definition fint_N (F : nat -> nat -> R) (e : nat -> R) (k : nat) : R := sumn 6 (fun l => Fsym F k l * e l).

Definition fint_form (mdl : model) (Q : rule) (Bs : basis) (cs : nat -> R) (F : nat -> nat -> nat -> nat -> R) (s : shell) (col0 nx ny : nat) : updates :=
  flat_map (fun p =>
    let e := fint_strain mdl Bs s cs col0 p in
    let N := fint_N (F (p_x p) (p_y p)) e in
    flat_map (fun j => flat_map (fun i =>
      map (fun t => ((dofpos col0 (sh_m s) i j + fst t)%nat, snd t))
        (fint_ker mdl Bs s (p_xi p) (p_eta p) (p_w p) (p_intx p) (p_inty p)
           (wxi_at Bs s cs col0 true p) (weta_at Bs s cs col0 true p)
           (N 0%nat) (N 1%nat) (N 2%nat) (N 3%nat) (N 4%nat) (N 5%nat) i j))
      (seq 0 (sh_m s))) (seq 0 (sh_n s))) (points Q s nx ny).

Lemma flat_map_ext' {A B} (f g : A -> list B) l : (forall x, f x = g x) -> flat_map f l = flat_map g l.
Proof. intro H. induction l; cbn; [reflexivity|]. rewrite H, IHl. reflexivity. Qed.

Lemma plate_Nxx F e : plate_calc_fint_Nxx F (e 0%nat) (e 1%nat) (e 2%nat) (e 3%nat) (e 4%nat) (e 5%nat) = fint_N F e 0.
Proof. unfold fint_N, plate_calc_fint_Nxx. cbv zeta. cbn [sumn Fsym]. ring. Qed.
Lemma plate_Nyy F e : plate_calc_fint_Nyy F (e 0%nat) (e 1%nat) (e 2%nat) (e 3%nat) (e 4%nat) (e 5%nat) = fint_N F e 1.
Proof. unfold fint_N, plate_calc_fint_Nyy. cbv zeta. cbn [sumn Fsym]. ring. Qed.
Lemma plate_Nxy F e : plate_calc_fint_Nxy F (e 0%nat) (e 1%nat) (e 2%nat) (e 3%nat) (e 4%nat) (e 5%nat) = fint_N F e 2.
Proof. unfold fint_N, plate_calc_fint_Nxy. cbv zeta. cbn [sumn Fsym]. ring. Qed.
Lemma plate_Mxx F e : plate_calc_fint_Mxx F (e 0%nat) (e 1%nat) (e 2%nat) (e 3%nat) (e 4%nat) (e 5%nat) = fint_N F e 3.
Proof. unfold fint_N, plate_calc_fint_Mxx. cbv zeta. cbn [sumn Fsym]. ring. Qed.
Lemma plate_Myy F e : plate_calc_fint_Myy F (e 0%nat) (e 1%nat) (e 2%nat) (e 3%nat) (e 4%nat) (e 5%nat) = fint_N F e 4.
Proof. unfold fint_N, plate_calc_fint_Myy. cbv zeta. cbn [sumn Fsym]. ring. Qed.
Lemma plate_Mxy F e : plate_calc_fint_Mxy F (e 0%nat) (e 1%nat) (e 2%nat) (e 3%nat) (e 4%nat) (e 5%nat) = fint_N F e 5.
Proof. unfold fint_N, plate_calc_fint_Mxy. cbv zeta. cbn [sumn Fsym]. ring. Qed.
Lemma cyl_Nxx F e : cyl_calc_fint_Nxx F (e 0%nat) (e 1%nat) (e 2%nat) (e 3%nat) (e 4%nat) (e 5%nat) = fint_N F e 0.
Proof. unfold fint_N, cyl_calc_fint_Nxx. cbv zeta. cbn [sumn Fsym]. ring. Qed.
Lemma cyl_Nyy F e : cyl_calc_fint_Nyy F (e 0%nat) (e 1%nat) (e 2%nat) (e 3%nat) (e 4%nat) (e 5%nat) = fint_N F e 1.
Proof. unfold fint_N, cyl_calc_fint_Nyy. cbv zeta. cbn [sumn Fsym]. ring. Qed.
Lemma cyl_Nxy F e : cyl_calc_fint_Nxy F (e 0%nat) (e 1%nat) (e 2%nat) (e 3%nat) (e 4%nat) (e 5%nat) = fint_N F e 2.
Proof. unfold fint_N, cyl_calc_fint_Nxy. cbv zeta. cbn [sumn Fsym]. ring. Qed.
Lemma cyl_Mxx F e : cyl_calc_fint_Mxx F (e 0%nat) (e 1%nat) (e 2%nat) (e 3%nat) (e 4%nat) (e 5%nat) = fint_N F e 3.
Proof. unfold fint_N, cyl_calc_fint_Mxx. cbv zeta. cbn [sumn Fsym]. ring. Qed.
Lemma cyl_Myy F e : cyl_calc_fint_Myy F (e 0%nat) (e 1%nat) (e 2%nat) (e 3%nat) (e 4%nat) (e 5%nat) = fint_N F e 4.
Proof. unfold fint_N, cyl_calc_fint_Myy. cbv zeta. cbn [sumn Fsym]. ring. Qed.
Lemma cyl_Mxy F e : cyl_calc_fint_Mxy F (e 0%nat) (e 1%nat) (e 2%nat) (e 3%nat) (e 4%nat) (e 5%nat) = fint_N F e 5.
Proof. unfold fint_N, cyl_calc_fint_Mxy. cbv zeta. cbn [sumn Fsym]. ring. Qed.

Lemma fint_num_form mdl Q Bs cs Fi s o nx ny u : calc_fint_num mdl Q Bs cs Fi s o nx ny = Ok u ->
  exists F, sel_F nx ny Fi = Ok F /\ u = fint_form mdl Q Bs cs F s o nx ny.
Proof.
  intro H. destruct mdl; cbn [calc_fint_num] in H; unfold plate_calc_fint, cyl_calc_fint, rmap, rbind in H;
  (destruct (sel_F nx ny Fi) as [F|] eqn:EF; [|discriminate]); exists F; (split; [reflexivity|]);
  apply (f_equal (fun r => match r with Ok x => x | Err _ => u end)) in H; cbv beta iota in H; rewrite <- H;
  unfold fint_form; apply flat_map_ext'; intro p; cbv zeta; apply flat_map_ext'; intro j; apply flat_map_ext'; intro i;
  cbn [fint_ker fint_strain].
  - rewrite plate_Nxx, plate_Nyy, plate_Nxy, plate_Mxx, plate_Myy, plate_Mxy. reflexivity.
  - rewrite cyl_Nxx, cyl_Nyy, cyl_Nxy, cyl_Mxx, cyl_Myy, cyl_Mxy. reflexivity.
Qed.

Theorem fint_num_work mdl Q Bs cs Fi s o nx ny u N v : geometry_ok mdl s -> (o + ndof s <= N)%nat -> laminate_ok nx ny Fi ->
  calc_fint_num mdl Q Bs cs Fi s o nx ny = Ok u ->
  dot N (vdense u) v =
  integrate Q s nx ny (fun i j xi eta =>
    dot 6 (resultant (laminate_at Fi i j) (doubled_strain (curvature mdl s) Bs s (own o cs) xi eta))
          (dstrain (curvature mdl s) Bs s (own o cs) (own o v) xi eta)).
Proof.
  intros Hg HN HF H. destruct (fint_num_form _ _ _ _ _ _ _ _ _ _ H) as (F & HselF & ->).
  assert (Hg' := Hg). destruct Hg' as (Ha & Hb & Hr).
  rewrite vdense_dot.
  - unfold fint_form. rewrite suml_flat_map, <- suml_points by assumption. apply suml_ext; intros p Hp. cbv zeta.
    destruct (points_bounds _ _ _ _ _ Hp) as [Hx Hy].
    set (e := fint_strain mdl Bs s cs o p). set (Nk := fint_N (F (p_x p) (p_y p)) e).
    rewrite suml_flat_map, suml_seq0.
    transitivity (cfield o (sh_m s) (sh_n s) v (fun i j d => p_w p * (p_intx p * p_inty p / 4) *
       sumn 6 (fun k => Nk k * Bop (curvature mdl s) Bs s (2 / sh_a s * wxi_at Bs s cs o true p) (2 / sh_b s * weta_at Bs s cs o true p) (p_xi p) (p_eta p) k i j d))).
    + unfold cfield, dofsum. apply sumn_ext; intros j _. rewrite suml_flat_map, suml_seq0. apply sumn_ext; intros i _.
      rewrite suml_map. cbn [fst snd].
      rewrite (suml_loc1 _ (fun d => v (dofpos o (sh_m s) i j + d)%nat)) by (intros t Ht; eapply fint_ker_dofs; exact Ht).
      apply sumn_ext; intros d Hd. rewrite fint_ker_Bop by assumption. reflexivity.
    + rewrite wxi_slope, weta_slope. cbn [state].
      transitivity (p_w p * (p_intx p * p_inty p / 4) * sumn 6 (fun k => Nk k *
         cfield o (sh_m s) (sh_n s) v (Bop (curvature mdl s) Bs s (d_wx Bs s (shift o cs) (p_xi p) (p_eta p)) (d_wy Bs s (shift o cs) (p_xi p) (p_eta p)) (p_xi p) (p_eta p) k))).
      * unfold cfield. rewrite <- sumn_scal.
        rewrite (sumn_ext 6 _ (fun k => dofsum (sh_m s) (sh_n s) (fun i j d => v (dofpos o (sh_m s) i j + d)%nat *
            (p_w p * (p_intx p * p_inty p / 4) * (Nk k * Bop (curvature mdl s) Bs s (d_wx Bs s (shift o cs) (p_xi p) (p_eta p)) (d_wy Bs s (shift o cs) (p_xi p) (p_eta p)) (p_xi p) (p_eta p) k i j d))))).
        2:{ intros k _. unfold dofsum. rewrite <- !sumn_scal. apply sumn_ext; intros j _. rewrite <- !sumn_scal. apply sumn_ext; intros i _.
            rewrite <- !sumn_scal. apply sumn_ext; intros d _. ring. }
        symmetry. unfold dofsum. rewrite (sumn_swap 6). apply sumn_ext; intros j _. rewrite (sumn_swap 6). apply sumn_ext; intros i _.
        rewrite (sumn_swap 6). apply sumn_ext; intros d _. rewrite <- !sumn_scal. apply sumn_ext; intros k _. reflexivity.
      * f_equal. unfold dot. apply sumn_ext; intros k Hk. rewrite cfield_Bop. f_equal.
        unfold Nk, fint_N, resultant. apply sumn_ext; intros l Hl.
        rewrite (sel_F_laminate _ _ _ _ HselF). unfold e. rewrite fint_strain_eq, kG_strain_coded by assumption.
        cbn [coded_strain]. f_equal. apply Fsym_id; [apply HF; assumption|assumption|assumption].
  - intros t Ht. unfold fint_form in Ht. apply in_flat_map in Ht. destruct Ht as (p & _ & Ht). cbv zeta in Ht.
    apply in_flat_map in Ht. destruct Ht as (j & Hj & Ht). apply in_flat_map in Ht. destruct Ht as (i & Hi & Ht).
    apply in_map_iff in Ht. destruct Ht as (t' & <- & Ht'). apply fint_ker_dofs in Ht'. cbn [fst].
    apply in_seq in Hj. apply in_seq in Hi. unfold dofpos, ndof, DOF in *. nia.
Qed.
