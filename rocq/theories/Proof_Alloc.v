(* The number of triplets written by the assembly kernels. *)
From Coq Require Import Reals List Lia Arith Bool.
From Verif Require Import Base_Sum Model_Types Model_Result Model_Coo Model_PlateAna Model_CylAna Model_PlateNumKer Model_CylNumKer
  Model_Num Model_Conn Model_StiffKer Model_Shell Model_Fext Model_Alloc.
From Coq Require Import List.
Import ListNotations.
Open Scope R_scope.

Lemma flat_len_le : forall {A B} (f : A -> list B) l k,
  (forall x, (length (f x) <= k)%nat) -> (length (flat_map f l) <= length l * k)%nat.
Proof. intros A B f l k H. induction l as [|x l IH]; cbn; [lia|]. rewrite app_length. specialize (H x). lia. Qed.
Lemma flat_len_eq : forall {A B} (f : A -> list B) l k,
  (forall x, length (f x) = k) -> length (flat_map f l) = (length l * k)%nat.
Proof. intros A B f l k H. induction l as [|x l IH]; cbn; [lia|]. rewrite app_length, IH, H. reflexivity. Qed.
Lemma emit_len : forall skip r c b, (length (emit skip r c b) <= length b)%nat.
Proof. intros. unfold emit. destruct (skip && _)%bool; cbn; [lia|]. now rewrite map_length. Qed.
Lemma emit_len_eq : forall r c b, length (emit false r c b) = length b.
Proof. intros. unfold emit. cbn. now rewrite map_length. Qed.

Lemma ikjl_len : forall skip r c mA nA mB nB ker k, (forall i1 k1 j1 l1, (length (ker i1 k1 j1 l1) <= k)%nat) ->
  (length (loop_ikjl skip r c mA nA mB nB ker) <= mA * (mB * (nA * (nB * k))))%nat.
Proof.
  intros skip r c mA nA mB nB ker k H. unfold loop_ikjl.
  rewrite <- (seq_length mA 0) at 2. apply flat_len_le. intro i.
  rewrite <- (seq_length mB 0) at 2. apply flat_len_le. intro kk.
  rewrite <- (seq_length nA 0) at 2. apply flat_len_le. intro j.
  rewrite <- (seq_length nB 0) at 2. apply flat_len_le. intro l.
  etransitivity; [apply emit_len|apply H].
Qed.
Lemma jlik_len : forall skip r c mA nA mB nB ker k, (forall i1 k1 j1 l1, (length (ker i1 k1 j1 l1) <= k)%nat) ->
  (length (loop_jlik skip r c mA nA mB nB ker) <= nA * (nB * (mA * (mB * k))))%nat.
Proof.
  intros skip r c mA nA mB nB ker k H. unfold loop_jlik.
  rewrite <- (seq_length nA 0) at 2. apply flat_len_le. intro j.
  rewrite <- (seq_length nB 0) at 2. apply flat_len_le. intro l.
  rewrite <- (seq_length mA 0) at 2. apply flat_len_le. intro i.
  rewrite <- (seq_length mB 0) at 2. apply flat_len_le. intro kk.
  etransitivity; [apply emit_len|apply H].
Qed.
Lemma ikjl_len_eq : forall r c mA nA mB nB ker k, (forall i1 k1 j1 l1, length (ker i1 k1 j1 l1) = k) ->
  length (loop_ikjl false r c mA nA mB nB ker) = (mA * (mB * (nA * (nB * k))))%nat.
Proof.
  intros r c mA nA mB nB ker k H. unfold loop_ikjl.
  rewrite (flat_len_eq _ _ (mB * (nA * (nB * k)))%nat); [now rewrite seq_length|]. intro i.
  rewrite (flat_len_eq _ _ (nA * (nB * k))%nat); [now rewrite seq_length|]. intro kk.
  rewrite (flat_len_eq _ _ (nB * k)%nat); [now rewrite seq_length|]. intro j.
  rewrite (flat_len_eq _ _ k); [now rewrite seq_length|]. intro l.
  now rewrite emit_len_eq, H.
Qed.
Lemma jlik_len_eq : forall r c mA nA mB nB ker k, (forall i1 k1 j1 l1, length (ker i1 k1 j1 l1) = k) ->
  length (loop_jlik false r c mA nA mB nB ker) = (nA * (nB * (mA * (mB * k))))%nat.
Proof.
  intros r c mA nA mB nB ker k H. unfold loop_jlik.
  rewrite (flat_len_eq _ _ (nB * (mA * (mB * k)))%nat); [now rewrite seq_length|]. intro j.
  rewrite (flat_len_eq _ _ (mA * (mB * k))%nat); [now rewrite seq_length|]. intro l.
  rewrite (flat_len_eq _ _ (mB * k)%nat); [now rewrite seq_length|]. intro i.
  rewrite (flat_len_eq _ _ k); [now rewrite seq_length|]. intro kk.
  now rewrite emit_len_eq, H.
Qed.

Lemma add_values_len : forall a v, length (add_values a v) = length a.
Proof. induction a as [|x a IH]; intros [|v vs]; cbn; auto. Qed.
Lemma accumulate_len : forall {P} (pts : list P) (f : P -> coo) k,
  (forall p, (length (f p) <= k)%nat) -> (length (accumulate pts f) <= k)%nat.
Proof.
  intros P pts f k H. unfold accumulate. destruct pts as [|p0 pts]; cbn; [lia|].
  rewrite combine_length, map_length. specialize (H p0). lia.
Qed.

(* --- positions updated by calc_fint *)
Lemma dofpos_below : forall o m n i j d, (i < m)%nat -> (j < n)%nat -> (d < 3)%nat ->
  (o <= dofpos o m i j + d < o + DOF * (m * n))%nat.
Proof.
  intros o m n i j d Hi Hj Hd. unfold dofpos, DOF. split; [lia|].
  assert (S j * m <= n * m)%nat by (apply Nat.mul_le_mono_r; lia). nia.
Qed.

Definition in_range (lo hi : nat) (u : updates) : Prop := forall r x, In (r, x) u -> (lo <= r < hi)%nat.
Lemma rmap_ok_inv : forall {A B} (f : A -> B) x b, rmap f x = Ok b -> exists a, x = Ok a /\ b = f a.
Proof. intros A B f [a|e] b H; cbn in H; [|discriminate]. injection H as <-. eauto. Qed.

Lemma plate_fint_range : forall Q Bs cs Fi s col0 nx ny u, plate_calc_fint Q Bs cs Fi s col0 nx ny = Ok u ->
  in_range col0 (col0 + DOF * (sh_m s * sh_n s)) u.
Proof.
  intros Q Bs cs Fi s col0 nx ny u H r x Hin. unfold plate_calc_fint in H.
  apply rmap_ok_inv in H. destruct H as (F & _ & ->).
  apply in_flat_map in Hin. destruct Hin as (p & _ & Hin).
  apply in_flat_map in Hin. destruct Hin as (j & Hj & Hin).
  apply in_flat_map in Hin. destruct Hin as (i & Hi & Hin).
  apply in_seq in Hj. apply in_seq in Hi.
  apply in_map_iff in Hin. destruct Hin as ([d v] & He & Hd). injection He as <- _. cbn [fst].
  apply dofpos_below; try lia.
  unfold plate_calc_fint_ker in Hd. cbv zeta in Hd.
  destruct Hd as [Hd|[Hd|[Hd|[]]]]; injection Hd as <- _; lia.
Qed.
Lemma cyl_fint_range : forall Q Bs cs Fi s col0 nx ny u, cyl_calc_fint Q Bs cs Fi s col0 nx ny = Ok u ->
  in_range col0 (col0 + DOF * (sh_m s * sh_n s)) u.
Proof.
  intros Q Bs cs Fi s col0 nx ny u H r x Hin. unfold cyl_calc_fint in H.
  apply rmap_ok_inv in H. destruct H as (F & _ & ->).
  apply in_flat_map in Hin. destruct Hin as (p & _ & Hin).
  apply in_flat_map in Hin. destruct Hin as (j & Hj & Hin).
  apply in_flat_map in Hin. destruct Hin as (i & Hi & Hin).
  apply in_seq in Hj. apply in_seq in Hi.
  apply in_map_iff in Hin. destruct Hin as ([d v] & He & Hd). injection He as <- _. cbn [fst].
  apply dofpos_below; try lia.
  unfold cyl_calc_fint_ker in Hd. cbv zeta in Hd.
  destruct Hd as [Hd|[Hd|[Hd|[]]]]; injection Hd as <- _; lia.
Qed.

(* --- solving tactics *)
Ltac blk := intros; cbv beta delta [plate_fk0_ker plate_fkG0_ker plate_fkM_ker plate_fkAx_ker plate_fkAy_ker plate_fcA_ker
  cyl_fk0_ker cyl_fkG0_ker cyl_fkM_ker cyl_fkAx_ker cyl_fkAy_ker cyl_fcA_ker
  plate_fkC_num_ker plate_fkG_num_ker plate_fkM_num_ker plate_fkAx_num_ker plate_fkAy_num_ker
  cyl_fkC_num_ker cyl_fkG_num_ker cyl_fkAx_num_ker
  fkCf_ker fkGf_ker fkMf_ker fkCss_ker fkCsf_ker fkCff_ker
  fkCSSxcte11_ker fkCSSxcte12_ker fkCSSxcte22_ker fkCSSycte11_ker fkCSSycte12_ker fkCSSycte22_ker
  fkCBFxcte11_ker fkCBFxcte12_ker fkCBFxcte22_ker fkCBFycte11_ker fkCBFycte12_ker fkCBFycte22_ker
  fkCSB11_ker fkCSB12_ker fkCSB22_ker fkCpd_ker fkCld_xcte_ker fkCld_ycte_ker]; cbv zeta; cbn [length].
Ltac ile n := etransitivity; [apply (ikjl_len _ _ _ _ _ _ _ _ n); blk; lia|nia].
Ltac jle n := etransitivity; [apply (jlik_len _ _ _ _ _ _ _ _ n); blk; lia|nia].
Ltac ieq n := rewrite (ikjl_len_eq _ _ _ _ _ _ _ n); [nia|blk; reflexivity].
Ltac jeq n := rewrite (jlik_len_eq _ _ _ _ _ _ _ n); [nia|blk; reflexivity].

(* --- closed-form kernels *)
Lemma len_plate_fk0 : forall T s F r c, (length (plate_fk0 T s F r c) <= fdim_plate_fk0 (sh_m s) (sh_n s))%nat.
Proof. intros. unfold plate_fk0, fdim_plate_fk0. ile 9%nat. Qed.
Lemma len_plate_fkG0 : forall T s x y z r c, (length (plate_fkG0 T s x y z r c) <= fdim_plate_fkG0 (sh_m s) (sh_n s))%nat.
Proof. intros. unfold plate_fkG0, fdim_plate_fkG0. ile 1%nat. Qed.
Lemma len_plate_fkM : forall T s x y z r c, (length (plate_fkM T s x y z r c) <= fdim_plate_fkM (sh_m s) (sh_n s))%nat.
Proof. intros. unfold plate_fkM, fdim_plate_fkM. ile 7%nat. Qed.
Lemma len_plate_fkAx : forall T s x y r c, (length (plate_fkAx T s x y r c) <= fdim_plate_fkAx (sh_m s) (sh_n s))%nat.
Proof. intros. unfold plate_fkAx, fdim_plate_fkAx. ile 1%nat. Qed.
Lemma len_plate_fkAy : forall T s x r c, (length (plate_fkAy T s x r c) <= fdim_plate_fkAy (sh_m s) (sh_n s))%nat.
Proof. intros. unfold plate_fkAy, fdim_plate_fkAy. ile 1%nat. Qed.
Lemma len_plate_fcA : forall T s x r c, (length (plate_fcA T s x r c) <= fdim_plate_fcA (sh_m s) (sh_n s))%nat.
Proof. intros. unfold plate_fcA, fdim_plate_fcA. ile 1%nat. Qed.
Lemma len_cyl_fk0 : forall T s F r c, (length (cyl_fk0 T s F r c) <= fdim_cyl_fk0 (sh_m s) (sh_n s))%nat.
Proof. intros. unfold cyl_fk0, fdim_cyl_fk0. ile 9%nat. Qed.
Lemma len_cyl_fkG0 : forall T s x y z r c, (length (cyl_fkG0 T s x y z r c) <= fdim_cyl_fkG0 (sh_m s) (sh_n s))%nat.
Proof. intros. unfold cyl_fkG0, fdim_cyl_fkG0. ile 1%nat. Qed.
Lemma len_cyl_fkM : forall T s x y z r c, (length (cyl_fkM T s x y z r c) <= fdim_cyl_fkM (sh_m s) (sh_n s))%nat.
Proof. intros. unfold cyl_fkM, fdim_cyl_fkM. ile 7%nat. Qed.
Lemma len_cyl_fkAx : forall T s x y r c, (length (cyl_fkAx T s x y r c) <= fdim_cyl_fkAx (sh_m s) (sh_n s))%nat.
Proof. intros. unfold cyl_fkAx, fdim_cyl_fkAx. ile 1%nat. Qed.
Lemma len_cyl_fkAy : forall T s x r c, (length (cyl_fkAy T s x r c) <= fdim_cyl_fkAy (sh_m s) (sh_n s))%nat.
Proof. intros. unfold cyl_fkAy, fdim_cyl_fkAy. ile 1%nat. Qed.
Lemma len_cyl_fcA : forall T s x r c, (length (cyl_fcA T s x r c) <= fdim_cyl_fcA (sh_m s) (sh_n s))%nat.
Proof. intros. unfold cyl_fcA, fdim_cyl_fcA. ile 1%nat. Qed.

(* --- integrated kernels, at one point *)
Lemma at_plate_fkC_num : forall Bs s F xi eta w ix iy wx we r c,
  (length (loop_ikjl true r c (sh_m s) (sh_n s) (sh_m s) (sh_n s) (plate_fkC_num_ker Bs s F xi eta w ix iy wx we)) <= fdim_plate_fkC_num (sh_m s) (sh_n s))%nat.
Proof. intros. unfold fdim_plate_fkC_num. ile 9%nat. Qed.
Lemma at_cyl_fkC_num : forall Bs s F xi eta w ix iy wx we r c,
  (length (loop_ikjl true r c (sh_m s) (sh_n s) (sh_m s) (sh_n s) (cyl_fkC_num_ker Bs s F xi eta w ix iy wx we)) <= fdim_cyl_fkC_num (sh_m s) (sh_n s))%nat.
Proof. intros. unfold fdim_cyl_fkC_num. ile 9%nat. Qed.
Lemma at_plate_fkG_num : forall Bs s xi eta w ix iy Nx Ny Nz r c,
  (length (loop_jlik true r c (sh_m s) (sh_n s) (sh_m s) (sh_n s) (plate_fkG_num_ker Bs s xi eta w ix iy Nx Ny Nz)) <= fdim_plate_fkG_num (sh_m s) (sh_n s))%nat.
Proof. intros. unfold fdim_plate_fkG_num. jle 1%nat. Qed.
Lemma at_cyl_fkG_num : forall Bs s xi eta w ix iy Nx Ny Nz r c,
  (length (loop_jlik true r c (sh_m s) (sh_n s) (sh_m s) (sh_n s) (cyl_fkG_num_ker Bs s xi eta w ix iy Nx Ny Nz)) <= fdim_cyl_fkG_num (sh_m s) (sh_n s))%nat.
Proof. intros. unfold fdim_cyl_fkG_num. jle 1%nat. Qed.
Lemma at_plate_fkM_num : forall Bs s xi eta w ix iy h rho d r c,
  (length (loop_ikjl true r c (sh_m s) (sh_n s) (sh_m s) (sh_n s) (plate_fkM_num_ker Bs s xi eta w ix iy h rho d)) <= fdim_plate_fkM_num (sh_m s) (sh_n s))%nat.
Proof. intros. unfold fdim_plate_fkM_num. ile 7%nat. Qed.
Lemma at_plate_fkAx_num : forall Bs s xi eta w ix iy r c,
  (length (loop_ikjl true r c (sh_m s) (sh_n s) (sh_m s) (sh_n s) (plate_fkAx_num_ker Bs s xi eta w ix iy)) <= fdim_plate_fkAx_num (sh_m s) (sh_n s))%nat.
Proof. intros. unfold fdim_plate_fkAx_num. ile 1%nat. Qed.
Lemma at_plate_fkAy_num : forall Bs s xi eta w ix iy r c,
  (length (loop_ikjl true r c (sh_m s) (sh_n s) (sh_m s) (sh_n s) (plate_fkAy_num_ker Bs s xi eta w ix iy)) <= fdim_plate_fkAy_num (sh_m s) (sh_n s))%nat.
Proof. intros. unfold fdim_plate_fkAy_num. ile 1%nat. Qed.
Lemma at_cyl_fkAx_num : forall Bs s xi eta w ix iy r c,
  (length (loop_ikjl true r c (sh_m s) (sh_n s) (sh_m s) (sh_n s) (cyl_fkAx_num_ker Bs s xi eta w ix iy)) <= fdim_cyl_fkAx_num (sh_m s) (sh_n s))%nat.
Proof. intros. unfold fdim_cyl_fkAx_num. ile 1%nat. Qed.

(* --- connections and stiffeners *)
Lemma len_fkCSSycte11 : forall (T : tables) (Bs : basis) (kt kr : R) (p1 : shell) (ycte1 : R) (row0 col0 : nat), (length (fkCSSycte11 T Bs kt kr p1 ycte1 row0 col0) <= fdim_fkCSSycte11 (sh_m p1) (sh_n p1))%nat.
Proof. intros. unfold fkCSSycte11, fdim_fkCSSycte11. ile 3%nat. Qed.
Lemma len_fkCSSycte12 : forall (T : tables) (Bs : basis) (kt kr : R) (p1 p2 : shell) (ycte1 ycte2 : R) (row0 col0 : nat), (length (fkCSSycte12 T Bs kt kr p1 p2 ycte1 ycte2 row0 col0) = fdim_fkCSSycte12 (sh_m p1) (sh_n p1) (sh_m p2) (sh_n p2))%nat.
Proof. intros. unfold fkCSSycte12, fdim_fkCSSycte12. ieq 3%nat. Qed.
Lemma len_fkCSSycte22 : forall (T : tables) (Bs : basis) (kt kr : R) (p1 p2 : shell) (ycte2 : R) (row0 col0 : nat), (length (fkCSSycte22 T Bs kt kr p1 p2 ycte2 row0 col0) <= fdim_fkCSSycte22 (sh_m p2) (sh_n p2))%nat.
Proof. intros. unfold fkCSSycte22, fdim_fkCSSycte22. ile 3%nat. Qed.
Lemma len_fkCSSxcte11 : forall (T : tables) (Bs : basis) (kt kr : R) (p1 : shell) (xcte1 : R) (row0 col0 : nat), (length (fkCSSxcte11 T Bs kt kr p1 xcte1 row0 col0) <= fdim_fkCSSxcte11 (sh_m p1) (sh_n p1))%nat.
Proof. intros. unfold fkCSSxcte11, fdim_fkCSSxcte11. jle 3%nat. Qed.
Lemma len_fkCSSxcte12 : forall (T : tables) (Bs : basis) (kt kr : R) (p1 p2 : shell) (xcte1 xcte2 : R) (row0 col0 : nat), (length (fkCSSxcte12 T Bs kt kr p1 p2 xcte1 xcte2 row0 col0) = fdim_fkCSSxcte12 (sh_m p1) (sh_n p1) (sh_m p2) (sh_n p2))%nat.
Proof. intros. unfold fkCSSxcte12, fdim_fkCSSxcte12. jeq 3%nat. Qed.
Lemma len_fkCSSxcte22 : forall (T : tables) (Bs : basis) (kt kr : R) (p1 p2 : shell) (xcte2 : R) (row0 col0 : nat), (length (fkCSSxcte22 T Bs kt kr p1 p2 xcte2 row0 col0) <= fdim_fkCSSxcte22 (sh_m p2) (sh_n p2))%nat.
Proof. intros. unfold fkCSSxcte22, fdim_fkCSSxcte22. jle 3%nat. Qed.
Lemma len_fkCBFycte11 : forall (T : tables) (Bs : basis) (kt kr : R) (p1 : shell) (ycte1 : R) (row0 col0 : nat), (length (fkCBFycte11 T Bs kt kr p1 ycte1 row0 col0) <= fdim_fkCBFycte11 (sh_m p1) (sh_n p1))%nat.
Proof. intros. unfold fkCBFycte11, fdim_fkCBFycte11. ile 3%nat. Qed.
Lemma len_fkCBFycte12 : forall (T : tables) (Bs : basis) (kt kr : R) (p1 p2 : shell) (ycte1 ycte2 : R) (row0 col0 : nat), (length (fkCBFycte12 T Bs kt kr p1 p2 ycte1 ycte2 row0 col0) = fdim_fkCBFycte12 (sh_m p1) (sh_n p1) (sh_m p2) (sh_n p2))%nat.
Proof. intros. unfold fkCBFycte12, fdim_fkCBFycte12. ieq 4%nat. Qed.
Lemma len_fkCBFycte22 : forall (T : tables) (Bs : basis) (kt kr : R) (p1 p2 : shell) (ycte2 : R) (row0 col0 : nat), (length (fkCBFycte22 T Bs kt kr p1 p2 ycte2 row0 col0) <= fdim_fkCBFycte22 (sh_m p2) (sh_n p2))%nat.
Proof. intros. unfold fkCBFycte22, fdim_fkCBFycte22. ile 3%nat. Qed.
Lemma len_fkCBFxcte11 : forall (T : tables) (Bs : basis) (kt kr : R) (p1 : shell) (xcte1 : R) (row0 col0 : nat), (length (fkCBFxcte11 T Bs kt kr p1 xcte1 row0 col0) <= fdim_fkCBFxcte11 (sh_m p1) (sh_n p1))%nat.
Proof. intros. unfold fkCBFxcte11, fdim_fkCBFxcte11. jle 3%nat. Qed.
Lemma len_fkCBFxcte12 : forall (T : tables) (Bs : basis) (kt kr : R) (p1 p2 : shell) (xcte1 xcte2 : R) (row0 col0 : nat), (length (fkCBFxcte12 T Bs kt kr p1 p2 xcte1 xcte2 row0 col0) = fdim_fkCBFxcte12 (sh_m p1) (sh_n p1) (sh_m p2) (sh_n p2))%nat.
Proof. intros. unfold fkCBFxcte12, fdim_fkCBFxcte12. jeq 4%nat. Qed.
Lemma len_fkCBFxcte22 : forall (T : tables) (Bs : basis) (kt kr : R) (p1 p2 : shell) (xcte2 : R) (row0 col0 : nat), (length (fkCBFxcte22 T Bs kt kr p1 p2 xcte2 row0 col0) <= fdim_fkCBFxcte22 (sh_m p2) (sh_n p2))%nat.
Proof. intros. unfold fkCBFxcte22, fdim_fkCBFxcte22. jle 3%nat. Qed.
Lemma len_fkCSB11 : forall (T : tables) (kt dsb : R) (p1 : shell) (row0 col0 : nat), (length (fkCSB11 T kt dsb p1 row0 col0) <= fdim_fkCSB11 (sh_m p1) (sh_n p1))%nat.
Proof. intros. unfold fkCSB11, fdim_fkCSB11. ile 7%nat. Qed.
Lemma len_fkCSB12 : forall (T : tables) (kt dsb : R) (p1 p2 : shell) (row0 col0 : nat), (length (fkCSB12 T kt dsb p1 p2 row0 col0) = fdim_fkCSB12 (sh_m p1) (sh_n p1) (sh_m p2) (sh_n p2))%nat.
Proof. intros. unfold fkCSB12, fdim_fkCSB12. ieq 5%nat. Qed.
Lemma len_fkCSB22 : forall (T : tables) (kt : R) (p1 p2 : shell) (row0 col0 : nat), (length (fkCSB22 T kt p1 p2 row0 col0) <= fdim_fkCSB22 (sh_m p2) (sh_n p2))%nat.
Proof. intros. unfold fkCSB22, fdim_fkCSB22. ile 3%nat. Qed.
Lemma len_fkCf : forall (T : tables) (Bs : basis) (s : shell) (ys bfl df E1 F1 S1 Jxx : R) (row0 col0 : nat), (length (fkCf T Bs s ys bfl df E1 F1 S1 Jxx row0 col0) <= fdim_fkCf (sh_m s) (sh_n s))%nat.
Proof. intros. unfold fkCf, fdim_fkCf. ile 4%nat. Qed.
Lemma len_fkGf : forall (T : tables) (Bs : basis) (s : shell) (ys Fx : R) (row0 col0 : nat), (length (fkGf T Bs s ys Fx row0 col0) <= fdim_fkGf (sh_m s) (sh_n s))%nat.
Proof. intros. unfold fkGf, fdim_fkGf. ile 1%nat. Qed.
Lemma len_fkMf : forall (T : tables) (Bs : basis) (s : shell) (ys rho h hb hf bfl df : R) (row0 col0 : nat), (length (fkMf T Bs s ys rho h hb hf bfl df row0 col0) <= fdim_fkMf (sh_m s) (sh_n s))%nat.
Proof. intros. unfold fkMf, fdim_fkMf. ile 7%nat. Qed.
Lemma len_fkCss : forall (T : tables) (Bs : basis) (kt kr : R) (s : shell) (ys : R) (row0 col0 : nat), (length (fkCss T Bs kt kr s ys row0 col0) <= fdim_fkCss (sh_m s) (sh_n s))%nat.
Proof. intros. unfold fkCss, fdim_fkCss. ile 3%nat. Qed.
Lemma len_fkCsf : forall (T : tables) (Bs : basis) (kt kr : R) (s q : shell) (ys bfl : R) (row0 col0 : nat), (length (fkCsf T Bs kt kr s q ys bfl row0 col0) = fdim_fkCsf (sh_m s) (sh_n s) (sh_m q) (sh_n q))%nat.
Proof. intros. unfold fkCsf, fdim_fkCsf. ieq 4%nat. Qed.
Lemma len_fkCff : forall (T : tables) (Bs : basis) (kt kr a bfl : R) (q : shell) (row0 col0 : nat), (length (fkCff T Bs kt kr a bfl q row0 col0) <= fdim_fkCff (sh_m q) (sh_n q))%nat.
Proof. intros. unfold fkCff, fdim_fkCff. ile 3%nat. Qed.

(* --- supports *)
Lemma to_shape_inv : forall size M N, to_shape size M = Ok N -> N = M.
Proof. intros size M N H. unfold to_shape in H. destruct (in_shape size M); [congruence|discriminate]. Qed.
Lemma len_fkCpd : forall Bs ku kv kw s xp yp size r c M, fkCpd Bs ku kv kw s xp yp size r c = Ok M ->
  (length M <= fdim_fkCpd (sh_m s) (sh_n s))%nat.
Proof. intros until M. intro H. apply to_shape_inv in H. subst M. unfold fdim_fkCpd. jle 3%nat. Qed.
Lemma len_fkCld_xcte : forall T Bs ku kv kw s xp size r c M, fkCld_xcte T Bs ku kv kw s xp size r c = Ok M ->
  (length M <= fdim_fkCld_xcte (sh_m s) (sh_n s))%nat.
Proof. intros until M. intro H. apply to_shape_inv in H. subst M. unfold fdim_fkCld_xcte. jle 3%nat. Qed.
Lemma len_fkCld_ycte : forall T Bs ku kv kw s yp size r c M, fkCld_ycte T Bs ku kv kw s yp size r c = Ok M ->
  (length M <= fdim_fkCld_ycte (sh_m s) (sh_n s))%nat.
Proof. intros until M. intro H. apply to_shape_inv in H. subst M. unfold fdim_fkCld_ycte. ile 3%nat. Qed.
