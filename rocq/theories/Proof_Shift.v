(* A matrix or vector calculated at an offset is the one calculated at 0, moved. *)
From Coq Require Import Reals List Arith Bool Lia Lra.
From Verif Require Import Base_Sum Model_Types Model_Coo Model_Result Model_Num Model_PlateNumKer Model_CylNumKer Model_PlateAna Model_CylAna Model_DB.
Import ListNotations.
Open Scope R_scope.

Definition sh3 (o : nat) (t : nat * nat * R) : nat * nat * R := let '(r, c, v) := t in ((o + r)%nat, (o + c)%nat, v).
Definition shiftc (o : nat) (M : coo) : coo := map (sh3 o) M.

Lemma dofpos_off o m i j : dofpos o m i j = (o + dofpos 0 m i j)%nat.
Proof. unfold dofpos. lia. Qed.
Lemma emit_shift skip o r c b : emit skip (o + r) (o + c) b = shiftc o (emit skip r c b).
Proof.
  unfold emit, shiftc. replace (o + c <? o + r)%nat with (c <? r)%nat by (destruct (c <? r)%nat eqn:A; symmetry; [apply Nat.ltb_lt in A; apply Nat.ltb_lt|apply Nat.ltb_ge in A; apply Nat.ltb_ge]; lia).
  destruct (skip && (c <? r)%nat)%bool; [reflexivity|]. rewrite map_map. apply map_ext. intros [[d e] v]. unfold sh3. f_equal. f_equal; lia.
Qed.
Lemma shiftc_flat {X} o (l : list X) f : shiftc o (flat_map f l) = flat_map (fun x => shiftc o (f x)) l.
Proof. induction l as [|x l IH]; [reflexivity|]. cbn [flat_map]. unfold shiftc in *. rewrite map_app, IH. reflexivity. Qed.
Lemma flat_ext {X Y} (l : list X) (f g : X -> list Y) : (forall x, In x l -> f x = g x) -> flat_map f l = flat_map g l.
Proof. induction l as [|x l IH]; intro H; [reflexivity|]. cbn [flat_map]. rewrite H by (left; reflexivity). rewrite IH; [reflexivity|]. intros; apply H; right; assumption. Qed.
Lemma loop_shift skip o mA nA mB nB ker : loop_ikjl skip o o mA nA mB nB ker = shiftc o (loop_ikjl skip 0 0 mA nA mB nB ker).
Proof.
  unfold loop_ikjl. rewrite shiftc_flat. apply flat_ext; intros i _. rewrite shiftc_flat. apply flat_ext; intros k _.
  rewrite shiftc_flat. apply flat_ext; intros j _. rewrite shiftc_flat. apply flat_ext; intros l _.
  rewrite (dofpos_off o mA), (dofpos_off o mB). apply emit_shift.
Qed.
Lemma loop_shift_jlik skip o mA nA mB nB ker : loop_jlik skip o o mA nA mB nB ker = shiftc o (loop_jlik skip 0 0 mA nA mB nB ker).
Proof.
  unfold loop_jlik. rewrite shiftc_flat. apply flat_ext; intros i _. rewrite shiftc_flat. apply flat_ext; intros k _.
  rewrite shiftc_flat. apply flat_ext; intros j _. rewrite shiftc_flat. apply flat_ext; intros l _.
  rewrite (dofpos_off o mA), (dofpos_off o mB). apply emit_shift.
Qed.
Lemma combine_map_l {X Y Z} (f : X -> Z) (l : list X) (v : list Y) : combine (map f l) v = map (fun t => (f (fst t), snd t)) (combine l v).
Proof. revert v. induction l as [|x l IH]; intros [|y v]; cbn; try reflexivity. rewrite IH. reflexivity. Qed.
Lemma accumulate_shift {P} (pts : list P) o e e' : (forall p, In p pts -> e p = shiftc o (e' p)) -> accumulate pts e = shiftc o (accumulate pts e').
Proof.
  intro H. unfold accumulate. destruct pts as [|p0 pts]; [reflexivity|].
  assert (A : forall l acc, (forall p, In p l -> e p = shiftc o (e' p)) ->
    fold_left (fun acc p => add_values acc (map snd (e p))) l acc = fold_left (fun acc p => add_values acc (map snd (e' p))) l acc).
  { induction l as [|p l IH]; intros acc Hl; [reflexivity|]. cbn [fold_left]. rewrite IH by (intros; apply Hl; right; assumption).
    f_equal. f_equal. rewrite Hl by (left; reflexivity). unfold shiftc. rewrite map_map. apply map_ext. intros [[? ?] ?]. reflexivity. }
  rewrite A by exact H.
  rewrite (H p0) by (left; reflexivity).
  replace (map fst (shiftc o (e' p0))) with (map (fun rc : nat * nat => ((o + fst rc)%nat, (o + snd rc)%nat)) (map fst (e' p0))).
  2:{ unfold shiftc. rewrite !map_map. apply map_ext. intros [[? ?] ?]. reflexivity. }
  rewrite combine_map_l. cbv zeta. unfold shiftc. rewrite (map_map _ (fun _ => 0) (map fst (e' p0))). apply map_ext. intros [[? ?] ?]. reflexivity.
Qed.
Lemma shiftc_app o A B : shiftc o (A ++ B) = shiftc o A ++ shiftc o B.
Proof. apply map_app. Qed.

Lemma dense_shift o M r s : dense (shiftc o M) r s = if ((o <=? r) && (o <=? s))%nat%bool then dense M (r - o) (s - o) else 0.
Proof.
  unfold dense, shiftc. induction M as [|[[i j] v] M IH]; cbn [map suml]; [destruct (_ && _)%bool; reflexivity|].
  rewrite IH. unfold sh3. destruct (o <=? r)%nat eqn:A; destruct (o <=? s)%nat eqn:B; cbn [andb].
  - apply Nat.leb_le in A, B. replace (o + i =? r)%nat with (i =? r - o)%nat by (destruct (i =? r - o)%nat eqn:C; symmetry; [apply Nat.eqb_eq in C; apply Nat.eqb_eq|apply Nat.eqb_neq in C; apply Nat.eqb_neq]; lia).
    replace (o + j =? s)%nat with (j =? s - o)%nat by (destruct (j =? s - o)%nat eqn:C; symmetry; [apply Nat.eqb_eq in C; apply Nat.eqb_eq|apply Nat.eqb_neq in C; apply Nat.eqb_neq]; lia). reflexivity.
  - apply Nat.leb_gt in B. replace (o + j =? s)%nat with false by (symmetry; apply Nat.eqb_neq; lia). rewrite andb_false_r. lra.
  - apply Nat.leb_gt in A. replace (o + i =? r)%nat with false by (symmetry; apply Nat.eqb_neq; lia). cbn. lra.
  - apply Nat.leb_gt in A. replace (o + i =? r)%nat with false by (symmetry; apply Nat.eqb_neq; lia). cbn. lra.
Qed.

Ltac lsh := match goal with |- loop_ikjl ?sk ?o _ ?mA ?nA ?mB ?nB ?k = _ => exact (loop_shift sk o mA nA mB nB k) | |- loop_jlik ?sk ?o _ ?mA ?nA ?mB ?nB ?k = _ => exact (loop_shift_jlik sk o mA nA mB nB k) end.
(* --- kernels that read the Ritz vector --- *)
Section Reads.
Variables (s : shell) (o : nat) (cs cs' : nat -> R).
Hypothesis Hcs : forall k, (k < DOF * (sh_m s * sh_n s))%nat -> cs (o + k)%nat = cs' k.
Lemma read3 i j k : (i < sh_m s)%nat -> (j < sh_n s)%nat -> (k < 3)%nat -> cs (dofpos o (sh_m s) i j + k) = cs' (dofpos 0 (sh_m s) i j + k).
Proof using Hcs.
  intros Hi Hj Hk. rewrite dofpos_off. rewrite <- Nat.add_assoc. apply Hcs. unfold dofpos, DOF.
  assert (j * sh_m s + i < sh_m s * sh_n s)%nat by nia. lia.
Qed.
Lemma terms_ext (t t' : nat -> nat -> R) : (forall i j, (i < sh_m s)%nat -> (j < sh_n s)%nat -> t i j = t' i j) -> sum_terms s t = sum_terms s t'.
Proof using . intro H. unfold sum_terms. apply sumn_ext; intros j Hj. apply sumn_ext; intros i Hi. apply H; assumption. Qed.
Ltac term_tac := apply terms_ext; intros i j Hi Hj;
  pose proof (read3 i j 0 Hi Hj ltac:(lia)) as R0; pose proof (read3 i j 1 Hi Hj ltac:(lia)) as R1; pose proof (read3 i j 2 Hi Hj ltac:(lia)) as R2;
  cbv delta [plate_calc_fint_wxi_term plate_calc_fint_weta_term
    plate_fkG_num_exx_term plate_fkG_num_eyy_term plate_fkG_num_gxy_term plate_fkG_num_kxx_term plate_fkG_num_kyy_term plate_fkG_num_kxy_term
    cyl_fkG_num_exx_term cyl_fkG_num_eyy_term cyl_fkG_num_gxy_term cyl_fkG_num_kxx_term cyl_fkG_num_kyy_term cyl_fkG_num_kxy_term
    plate_calc_fint_exx_term plate_calc_fint_eyy_term plate_calc_fint_gxy_term plate_calc_fint_kxx_term plate_calc_fint_kyy_term plate_calc_fint_kxy_term
    cyl_calc_fint_exx_term cyl_calc_fint_eyy_term cyl_calc_fint_gxy_term cyl_calc_fint_kxx_term cyl_calc_fint_kyy_term cyl_calc_fint_kxy_term];
  cbv beta zeta; rewrite ?R0, ?R1, ?R2; reflexivity.
Lemma wxi_shift Bs NL p : wxi_at Bs s cs o NL p = wxi_at Bs s cs' 0 NL p.
Proof using Hcs. unfold wxi_at. destruct NL; [|reflexivity]. term_tac. Qed.
Lemma weta_shift Bs NL p : weta_at Bs s cs o NL p = weta_at Bs s cs' 0 NL p.
Proof using Hcs. unfold weta_at. destruct NL; [|reflexivity]. term_tac. Qed.
Lemma plate_kG_strain_shift Bs NL p k : plate_kG_strain Bs s cs o NL p k = plate_kG_strain Bs s cs' 0 NL p k.
Proof using Hcs. unfold plate_kG_strain. rewrite wxi_shift, weta_shift. cbv zeta. destruct k as [|[|[|[|[|k]]]]]; term_tac. Qed.
Lemma cyl_kG_strain_shift Bs NL p k : cyl_kG_strain Bs s cs o NL p k = cyl_kG_strain Bs s cs' 0 NL p k.
Proof using Hcs. unfold cyl_kG_strain. rewrite wxi_shift, weta_shift. cbv zeta. destruct k as [|[|[|[|[|k]]]]]; term_tac. Qed.
Lemma plate_fint_strain_shift Bs p k : plate_fint_strain Bs s cs o p k = plate_fint_strain Bs s cs' 0 p k.
Proof using Hcs. unfold plate_fint_strain. rewrite wxi_shift, weta_shift. cbv zeta. destruct k as [|[|[|[|[|k]]]]]; term_tac. Qed.
Lemma cyl_fint_strain_shift Bs p k : cyl_fint_strain Bs s cs o p k = cyl_fint_strain Bs s cs' 0 p k.
Proof using Hcs. unfold cyl_fint_strain. rewrite wxi_shift, weta_shift. cbv zeta. destruct k as [|[|[|[|[|k]]]]]; term_tac. Qed.

Lemma rmap_shift {X} (x : res X) (f g : X -> coo) : (forall a, f a = shiftc o (g a)) -> rmap f x = rmap (shiftc o) (rmap g x).
Proof using . intro H. destruct x; cbn; [rewrite H|]; reflexivity. Qed.
Lemma fkC_num_shift mdl Q Bs Fi nx ny NL : fkC_num mdl Q Bs cs Fi s o o nx ny NL = rmap (shiftc o) (fkC_num mdl Q Bs cs' Fi s 0 0 nx ny NL).
Proof using Hcs.
  destruct mdl; cbn [fkC_num]; unfold plate_fkC_num, cyl_fkC_num; apply rmap_shift; intro F; apply accumulate_shift; intros p _;
    rewrite wxi_shift, weta_shift; lsh.
Qed.
Lemma fkG_num_shift mdl Q Bs Fi nx ny NL a b c : fkG_num mdl Q Bs cs Fi s o o nx ny NL a b c = rmap (shiftc o) (fkG_num mdl Q Bs cs' Fi s 0 0 nx ny NL a b c).
Proof using Hcs.
  destruct mdl; cbn [fkG_num]; unfold plate_fkG_num, cyl_fkG_num; apply rmap_shift; intro F; apply accumulate_shift; intros p _; cbv zeta.
  - rewrite !plate_kG_strain_shift. lsh.
  - rewrite !cyl_kG_strain_shift. lsh.
Qed.

Definition shiftv (u : updates) : updates := map (fun t => ((o + fst t)%nat, snd t)) u.
Lemma shiftv_flat {X} (l : list X) f : shiftv (flat_map f l) = flat_map (fun x => shiftv (f x)) l.
Proof using . induction l as [|x l IH]; [reflexivity|]. cbn [flat_map]. unfold shiftv in *. rewrite map_app, IH. reflexivity. Qed.
Lemma fint_shift mdl Q Bs Fi nx ny : calc_fint_num mdl Q Bs cs Fi s o nx ny = rmap shiftv (calc_fint_num mdl Q Bs cs' Fi s 0 nx ny).
Proof using Hcs.
  assert (RS : forall X (x : res X) (f g : X -> updates), (forall a, f a = shiftv (g a)) -> rmap f x = rmap shiftv (rmap g x)).
  { intros X x f g H. destruct x; cbn; [rewrite H|]; reflexivity. }
  destruct mdl; cbn [calc_fint_num]; unfold plate_calc_fint, cyl_calc_fint; apply RS; intro F;
  rewrite shiftv_flat; apply flat_ext; intros p _; cbv zeta;
  rewrite shiftv_flat; apply flat_ext; intros j _; rewrite shiftv_flat; apply flat_ext; intros i _;
  rewrite wxi_shift, weta_shift, ?plate_fint_strain_shift, ?cyl_fint_strain_shift; unfold shiftv; rewrite map_map; apply map_ext; intros t; cbn [fst snd];
  rewrite (dofpos_off o), Nat.add_assoc; reflexivity.
Qed.
End Reads.
Lemma vdense_shift o u r : vdense (shiftv o u) r = if (o <=? r)%nat then vdense u (r - o) else 0.
Proof.
  unfold vdense, shiftv. induction u as [|[i v] u IH]; cbn [map suml fst snd]; [destruct (o <=? r)%nat; reflexivity|].
  rewrite IH. destruct (o <=? r)%nat eqn:A.
  - apply Nat.leb_le in A. replace (o + i =? r)%nat with (i =? r - o)%nat by (destruct (i =? r - o)%nat eqn:C; symmetry; [apply Nat.eqb_eq in C; apply Nat.eqb_eq|apply Nat.eqb_neq in C; apply Nat.eqb_neq]; lia). reflexivity.
  - apply Nat.leb_gt in A. replace (o + i =? r)%nat with false by (symmetry; apply Nat.eqb_neq; lia). lra.
Qed.

Lemma fk0_shift mdl T s F o : fk0 mdl T s F o o = shiftc o (fk0 mdl T s F 0 0).
Proof. destruct mdl; cbn [fk0 fkG0 fkM]; unfold plate_fk0, cyl_fk0, plate_fkG0, cyl_fkG0, plate_fkM, cyl_fkM; lsh. Qed.
Lemma fkG0_shift mdl T s a b c o : fkG0 mdl T s a b c o o = shiftc o (fkG0 mdl T s a b c 0 0).
Proof. destruct mdl; cbn [fk0 fkG0 fkM]; unfold plate_fk0, cyl_fk0, plate_fkG0, cyl_fkG0, plate_fkM, cyl_fkM; lsh. Qed.
Lemma fkM_shift mdl T s a b c o : fkM mdl T s a b c o o = shiftc o (fkM mdl T s a b c 0 0).
Proof. destruct mdl; cbn [fk0 fkG0 fkM]; unfold plate_fk0, cyl_fk0, plate_fkG0, cyl_fkG0, plate_fkM, cyl_fkM; lsh. Qed.
