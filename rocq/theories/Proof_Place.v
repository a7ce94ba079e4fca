(* A panel's matrices and vectors at an offset inside a larger system are those of the panel on its
   own, moved. *)
From Coq Require Import Reals List Arith Bool Lia Lra FunctionalExtensionality.
From Verif Require Import Base_Sum Model_Types Model_Coo Model_Result Model_Num Model_PlateNumKer Model_CylNumKer Model_DB Model_Shell Model_Fext Model_Multi Spec_Multi Spec_Panel Spec_Shell
  Proof_Shift Proof_Shell Proof_Api Proof_Total.
Import ListNotations.
Open Scope R_scope.

Definition at_block (o n : nat) (M : matrix) : matrix := fun r t =>
  if ((o <=? r) && (r <? o + n) && ((o <=? t) && (t <? o + n)))%nat%bool then M (r - o)%nat (t - o)%nat else 0.

Lemma dense_out n M r t : in_shape n M = true -> (n <= r \/ n <= t)%nat -> dense M r t = 0.
Proof.
  unfold in_shape, dense. intros H Ho. induction M as [|[[i j] v] M IH]; [reflexivity|].
  cbn [forallb fst snd] in H. apply andb_true_iff in H. destruct H as [H1 H2]. apply andb_true_iff in H1. destruct H1 as [Hi Hj].
  apply Nat.ltb_lt in Hi, Hj. cbn [suml]. rewrite IH by exact H2.
  destruct (i =? r)%nat eqn:A; destruct (j =? t)%nat eqn:B; cbn; try lra. apply Nat.eqb_eq in A, B. lia.
Qed.
Lemma shift_shape o n size M : in_shape n M = true -> (o + n <= size)%nat -> in_shape size (shiftc o M) = true.
Proof.
  unfold in_shape, shiftc. intros H Ho. rewrite forallb_forall in *. intros t0 HI. apply in_map_iff in HI. destruct HI as [[[i j] v] [<- HI]]. specialize (H _ HI).
  cbn in *. apply andb_true_iff in H. destruct H as [Hi Hj]. apply Nat.ltb_lt in Hi, Hj. apply andb_true_iff. split; apply Nat.ltb_lt; lia.
Qed.
Lemma dense_place o n M : in_shape n M = true -> dense (shiftc o M) = at_block o n (dense M).
Proof.
  intro H. extensionality r. extensionality t. rewrite dense_shift. unfold at_block.
  destruct (o <=? r)%nat eqn:A; destruct (o <=? t)%nat eqn:B; cbn [andb]; try reflexivity; [|rewrite ?andb_false_r; reflexivity].
  apply Nat.leb_le in A, B.
  destruct (r <? o + n)%nat eqn:C; [destruct (t <? o + n)%nat eqn:D; [reflexivity|]|]; cbn [andb];
    apply (dense_out n); try exact H; [apply Nat.ltb_ge in D|apply Nat.ltb_ge in C]; lia.
Qed.
Lemma finalize_place o n M : finalize_symmetric (at_block o n M) = at_block o n (finalize_symmetric M).
Proof.
  extensionality r. extensionality t. unfold finalize_symmetric, at_block.
  destruct (r <=? t)%nat eqn:A.
  - destruct (o <=? r)%nat eqn:C; cbn [andb]; [|reflexivity]. apply Nat.leb_le in A, C.
    replace (r - o <=? t - o)%nat with true by (symmetry; apply Nat.leb_le; lia). reflexivity.
  - destruct (o <=? t)%nat eqn:C; cbn [andb]; [|rewrite !andb_false_r; reflexivity]. apply Nat.leb_gt in A. apply Nat.leb_le in C.
    replace (o <=? r)%nat with true by (symmetry; apply Nat.leb_le; lia). cbn [andb].
    replace (r - o <=? t - o)%nat with false by (symmetry; apply Nat.leb_gt; lia). rewrite andb_comm. reflexivity.
Qed.
Lemma finalized_place fin o n M : in_shape n M = true -> finalized fin (shiftc o M) = at_block o n (finalized fin M).
Proof. intro H. unfold finalized. rewrite dense_place with (n := n) by exact H. destruct fin; [apply finalize_place|reflexivity]. Qed.

(* ------------------------------------------------- the result of calc_kC in closed form *)
Definition kC_result (E : env) (p : panel) (size o : nat) (fin : bool) (c : option carg) (NL : bool) : res matrix :=
  let mdl := chosen_model p in
  let F := lam_matrix (pn_ortho p) (rebuilt_lam E p) in
  let '(Nxx, Nyy, Nxy) := pn_N_cte p in
  rbind (match c with None => Ok None | Some c => rbind (check_c c size) (fun l => Ok (Some l)) end) (fun cl =>
  rbind (if (is_some c || NL)%bool
         then rbind (fkC_num mdl (e_rule E) (e_basis E) (vec (default [] cl)) (FMat F) (kernel_view p) o o
                       (Nat.max (pn_nx p) (sh_m (pn_sh p))) (Nat.max (pn_ny p) (sh_n (pn_sh p))) NL) (to_shape size)
         else to_shape size (fk0 mdl (e_tables E) (kernel_view p) F o o)) (fun kC =>
  rbind (if any3 (Nxx, Nyy, Nxy)
         then if NL then Err OutOfBounds
              else rbind (to_shape size (fkG0 mdl (e_tables E) (kernel_view p) Nxx Nyy Nxy o o)) (fun kG => Ok (coo_add kC kG))
         else Ok kC) (fun K => Ok (finalized fin K)))).

Lemma eval_size_val sz p1 p E : rebuild E p = (p1, Ok tt) -> exists k, eval_size sz p1 = (set_size p1 k, Ok (size_value sz (pn_sh p))).
Proof.
  intro ER. assert (HR := rebuild_inv _ _ _ _ ER). destruct HR as (Hin & Hr1 & Hm & _).
  assert (Hsh : pn_sh p1 = pn_sh p) by apply Hin.
  unfold size_value, eval_size, get_size, the_model, mbind, mget, mmod, mret.
  destruct sz; rewrite ?Hm; cbn [db_dofs]; rewrite ?Hsh.
  - eexists; reflexivity.
  - exists (pn_size p1). destruct p1; reflexivity.
  - eexists. reflexivity.
Qed.
Lemma kview E p p1 k r : rebuild E p = (p1, Ok tt) -> r = Some (default 0 (pn_r p1)) -> kernel_view (set_r (set_size p1 k) r) = kernel_view p.
Proof.
  intros ER ->. assert (HR := rebuild_inv _ _ _ _ ER). destruct HR as (Hin & Hr1 & Hm & _ & _ & _ & _ & _ & _ & _ & _ & _ & Hbe & Hga & _).
  apply view_eq; cbn; try assumption; [apply Hin|]. rewrite Hr1. reflexivity.
Qed.
Lemma calc_kC_result E sz o fin c NL p p1 : rebuild E p = (p1, Ok tt) ->
  snd (calc_kC E (mkKargs sz o o fin c None None None None NL) p) = kC_result E p (size_value sz (pn_sh p)) o fin c NL.
Proof.
  intro ER. destruct (eval_size_val sz _ _ _ ER) as [k HS].
  assert (HR := rebuild_inv _ _ _ _ ER). destruct HR as (Hin & Hr1 & Hm & _ & Hnx & Hny & Hl & HABD & _).
  unfold calc_kC. cbn [ka_size ka_row0 ka_col0 ka_fin ka_c ka_c_cte ka_nx ka_ny ka_F ka_NL is_some orb default].
  unfold mbind at 1. rewrite ER. unfold mbind at 1. rewrite HS. set (size := size_value sz (pn_sh p)).
  unfold kC_result. destruct (pn_N_cte p) as [[Nxx Nyy] Nxy] eqn:EN.
  assert (HNc : pn_N_cte p1 = (Nxx, Nyy, Nxy)) by (rewrite (si_N_cte _ _ Hin); exact EN).
  unfold mbind at 1.
  assert (Hrest : forall cl, (is_some cl = is_some c) ->
     snd ((do mdl <- the_model;
       do p0 <- mget;
       fix_r ;;
       do p <- mget;
       do kC <- (if negb (is_some c || false || NL)
         then mlift (to_shape size (fk0 mdl (e_tables E) (kernel_view p) (match pn_ABD p with Some F => F | None => fun _ _ => 0 end) o o))
         else match cl, @None finput, NL with
          | None, Some _, true => mraise OutOfBounds
          | _, _, _ =>
            mlift (rbind (fkC_num mdl (e_rule E) (e_basis E) (vec (default [] cl)) (match pn_ABD p with Some F => FMat F | None => FOther end) (kernel_view p) o o (pn_nx p0) (pn_ny p0) NL)
                    (to_shape size))
          end);
       do kC' <- (if any3 (pn_N_cte p) then
         do l <- mret (@None (list R));
         let '(Nxx, Nyy, Nxy) := pn_N_cte p in
         if (negb NL && true)%bool
         then do kG <- mlift (to_shape size (fkG0 mdl (e_tables E) (kernel_view p) Nxx Nyy Nxy o o)); mret (coo_add kC kG)
         else match l with
            | None => mraise OutOfBounds
            | Some l =>
              do kG <- mlift (rbind (fkG_num mdl (e_rule E) (e_basis E) (vec l) (match pn_ABD p with Some F => FMat F | None => FOther end) (kernel_view p) o o (pn_nx p0) (pn_ny p0) NL
                                      Nxx Nyy Nxy) (to_shape size));
              mret (coo_add kC kG)
            end
         else mret kC);
       mmod (fun p => set_matrices p (Some (finalized fin kC')) (pn_kG p) (pn_kT p) (pn_kM p) (pn_kA p)) ;; mret (finalized fin kC')) (set_size p1 k))
     = rbind (if (is_some c || NL)%bool
         then rbind (fkC_num (chosen_model p) (e_rule E) (e_basis E) (vec (default [] cl)) (FMat (lam_matrix (pn_ortho p) (rebuilt_lam E p))) (kernel_view p) o o
                       (Nat.max (pn_nx p) (sh_m (pn_sh p))) (Nat.max (pn_ny p) (sh_n (pn_sh p))) NL) (to_shape size)
         else to_shape size (fk0 (chosen_model p) (e_tables E) (kernel_view p) (lam_matrix (pn_ortho p) (rebuilt_lam E p)) o o)) (fun kC =>
       rbind (if any3 (Nxx, Nyy, Nxy)
         then if NL then Err OutOfBounds
              else rbind (to_shape size (fkG0 (chosen_model p) (e_tables E) (kernel_view p) Nxx Nyy Nxy o o)) (fun kG => Ok (coo_add kC kG))
         else Ok kC) (fun K => Ok (finalized fin K)))).
  { intros cl Hcl. unfold mbind at 1. unfold the_model at 1. replace (pn_model (set_size p1 k)) with (Some (Known (chosen_model p))) by (symmetry; exact Hm).
    unfold mbind at 1, mget at 1. unfold mbind at 1, fix_r at 1, mmod at 1. unfold mbind at 1, mget at 1.
    set (pf := set_r (set_size p1 k) _).
    assert (Hv : kernel_view pf = kernel_view p) by (apply (kview E); [exact ER|reflexivity]).
    rewrite Hv. change (pn_ABD pf) with (pn_ABD p1). change (pn_N_cte pf) with (pn_N_cte p1). rewrite HNc, HABD.
    change (pn_nx (set_size p1 k)) with (pn_nx p1). change (pn_ny (set_size p1 k)) with (pn_ny p1). rewrite Hnx, Hny.
    rewrite orb_false_r. unfold mbind at 1.
    assert (HB : forall A (x : res A) (pp : panel), mlift x pp = (pp, x)) by reflexivity.
    destruct (is_some c || NL)%bool eqn:EB; cbn [negb].
    - replace (match cl with Some _ | _ => mlift (rbind (fkC_num (chosen_model p) (e_rule E) (e_basis E) (vec (default [] cl)) (FMat (lam_matrix (pn_ortho p) (rebuilt_lam E p))) (kernel_view p) o o (Nat.max (pn_nx p) (sh_m (pn_sh p))) (Nat.max (pn_ny p) (sh_n (pn_sh p))) NL) (to_shape size)) end) with
        (mlift (rbind (fkC_num (chosen_model p) (e_rule E) (e_basis E) (vec (default [] cl)) (FMat (lam_matrix (pn_ortho p) (rebuilt_lam E p))) (kernel_view p) o o (Nat.max (pn_nx p) (sh_m (pn_sh p))) (Nat.max (pn_ny p) (sh_n (pn_sh p))) NL) (to_shape size)))
        by (destruct cl; reflexivity).
      rewrite HB. set (X := rbind (fkC_num _ _ _ _ _ _ _ _ _ _ _) _). destruct X as [kC|e]; cbn [rbind]; [|reflexivity].
      unfold mbind at 1. destruct (any3 (Nxx, Nyy, Nxy)); cbn [rbind]; [|reflexivity].
      unfold mbind at 1, mret at 1. destruct NL; cbn [negb andb]; [reflexivity|].
      unfold mbind at 1. rewrite HB. destruct (to_shape size _) as [kG|e]; reflexivity.
    - rewrite HB. set (X := to_shape size (fk0 _ _ _ _ _ _)). destruct X as [kC|e]; cbn [rbind]; [|reflexivity].
      apply orb_false_iff in EB. destruct EB as [_ ->].
      unfold mbind at 1. destruct (any3 (Nxx, Nyy, Nxy)); cbn [rbind]; [|reflexivity].
      unfold mbind at 1, mret at 1. cbn [negb andb].
      unfold mbind at 1. rewrite HB. destruct (to_shape size _) as [kG|e]; reflexivity. }
  destruct c as [c|].
  - unfold mbind at 1, mlift at 1. destruct (check_c c size) as [l|e]; cbn [rbind]; [|reflexivity].
    unfold mret at 1. exact (Hrest (Some l) eq_refl).
  - unfold mret at 1. cbn [rbind]. exact (Hrest None eq_refl).
Qed.

Lemma slice_vec o n l k : (k < n)%nat -> vec l (o + k) = vec (firstn n (skipn o l)) k.
Proof.
  intro Hk. unfold vec. revert o n k Hk; induction l as [|x l IH]; intros o n k Hk.
  - rewrite skipn_nil, firstn_nil. destruct (o + k)%nat; destruct k; reflexivity.
  - destruct o as [|o].
    + cbn [skipn Nat.add]. destruct n as [|n]; [lia|]. destruct k as [|k]; [reflexivity|]. cbn [firstn nth].
      specialize (IH 0%nat n k ltac:(lia)). cbn [skipn Nat.add] in IH. exact IH.
    + cbn [skipn Nat.add nth]. apply IH; exact Hk.
Qed.
Lemma ndof_view p : ndof (kernel_view p) = ndof (pn_sh p).
Proof. reflexivity. Qed.
Lemma size_none s : size_value SNone s = ndof s.
Proof. unfold size_value, ndof. cbn [db_dofs]. try reflexivity; lia. Qed.

(* the vector that the kernels read, on its own and inside the large one *)
Lemma reads_part o n size c : (forall l, c = Some (CVec l) -> length l = size) -> (o + n <= size)%nat ->
  forall cl0, match part o n c with None => Ok None | Some c => rbind (check_c c n) (fun l => Ok (Some l)) end = Ok cl0 ->
  exists cl, match c with None => Ok None | Some c => rbind (check_c c size) (fun l => Ok (Some l)) end = Ok cl /\
    is_some (part o n c) = is_some c /\ forall k, (k < n)%nat -> vec (default [] cl) (o + k) = vec (default [] cl0) k.
Proof.
  intros Hlen Ho cl0 H. destruct c as [[l| |]|]; cbn [part check_c rbind] in *; try discriminate.
  - specialize (Hlen l eq_refl). destruct (_ =? n)%nat; [|discriminate]. cbn in H. injection H as <-.
    exists (Some l). rewrite Hlen, Nat.eqb_refl. split; [reflexivity|]. split; [reflexivity|]. intros k Hk. cbn. apply slice_vec; exact Hk.
  - injection H as <-. exists None. split; [reflexivity|]. split; [reflexivity|]. intros q _. cbn [default]. unfold vec. destruct (o + q)%nat; destruct q; reflexivity.
Qed.
Lemma to_shape_shift o n size M M0 : to_shape n M = Ok M0 -> (o + n <= size)%nat -> to_shape size (shiftc o M) = Ok (shiftc o M0) /\ in_shape n M0 = true.
Proof. intros H Ho. apply to_shape_inv in H. destruct H as [-> H]. split; [unfold to_shape; rewrite shift_shape with (n := n); [reflexivity|exact H|exact Ho]|exact H]. Qed.
Lemma shape_add n A B : in_shape n A = true -> in_shape n B = true -> in_shape n (coo_add A B) = true.
Proof. intros HA HB. unfold in_shape, coo_add in *. rewrite forallb_app, HA, HB. reflexivity. Qed.

Lemma kC_place E p o size fin c NL K0 : (forall l, c = Some (CVec l) -> length l = size) -> (o + ndof (pn_sh p) <= size)%nat ->
  kC_result E p (ndof (pn_sh p)) 0 fin (part o (ndof (pn_sh p)) c) NL = Ok K0 ->
  kC_result E p size o fin c NL = Ok (at_block o (ndof (pn_sh p)) K0).
Proof.
  intros Hlen Ho H. unfold kC_result in *. destruct (pn_N_cte p) as [[Nxx Nyy] Nxy].
  apply rbind_inv in H. destruct H as [cl0 [Hc H]].
  destruct (reads_part _ _ _ _ Hlen Ho _ Hc) as (cl & -> & His & Hv). cbn [rbind]. rewrite His in H.
  apply rbind_inv in H. destruct H as [kC0 [HkC H]].
  assert (HkC' : (if (is_some c || NL)%bool
     then rbind (fkC_num (chosen_model p) (e_rule E) (e_basis E) (vec (default [] cl)) (FMat (lam_matrix (pn_ortho p) (rebuilt_lam E p))) (kernel_view p) o o
                   (Nat.max (pn_nx p) (sh_m (pn_sh p))) (Nat.max (pn_ny p) (sh_n (pn_sh p))) NL) (to_shape size)
     else to_shape size (fk0 (chosen_model p) (e_tables E) (kernel_view p) (lam_matrix (pn_ortho p) (rebuilt_lam E p)) o o)) = Ok (shiftc o kC0)
     /\ in_shape (ndof (pn_sh p)) kC0 = true).
  { destruct (is_some c || NL)%bool.
    - apply rbind_inv in HkC. destruct HkC as [M [HM Hs]].
      erewrite fkC_num_shift by exact Hv. rewrite HM. cbn [rmap rbind]. apply (to_shape_shift _ _ _ _ _ Hs Ho).
    - rewrite fk0_shift. apply (to_shape_shift _ _ _ _ _ HkC Ho). }
  destruct HkC' as [-> HsC]. cbn [rbind].
  destruct (any3 (Nxx, Nyy, Nxy)).
  - destruct NL; [discriminate|]. apply rbind_inv in H. destruct H as [K [H HK]]. apply rbind_inv in H. destruct H as [kG [HkG H]].
    rewrite fkG0_shift. destruct (to_shape_shift _ _ _ _ _ HkG Ho) as [-> HsG]. cbn [rbind].
    injection H as <-. injection HK as <-. unfold coo_add. rewrite <- shiftc_app. f_equal. apply finalized_place. apply shape_add; assumption.
  - cbn [rbind] in *. injection H as <-. f_equal. apply finalized_place. exact HsC.
Qed.

(* ------------------------------------------------- calc_kG *)
Definition kG_result (E : env) (p : panel) (size o : nat) (fin : bool) (c : option carg) (NL : bool) : res matrix :=
  let mdl := chosen_model p in
  let F := lam_matrix (pn_ortho p) (rebuilt_lam E p) in
  let '(Nxx, Nyy, Nxy) := pn_N p in
  rbind (match c with None => Ok (repeat 0 size) | Some c => check_c c size end) (fun cl =>
  rbind (if (is_some c || NL)%bool
         then rbind (fkG_num mdl (e_rule E) (e_basis E) (vec cl) (FMat F) (kernel_view p) o o
                       (Nat.max (pn_nx p) (sh_m (pn_sh p))) (Nat.max (pn_ny p) (sh_n (pn_sh p))) NL Nxx Nyy Nxy) (to_shape size)
         else to_shape size (fkG0 mdl (e_tables E) (kernel_view p) Nxx Nyy Nxy o o)) (fun kG =>
  Ok (finalized fin kG))).
Lemma calc_kG_result E sz o fin c NL p p1 : rebuild E p = (p1, Ok tt) ->
  snd (calc_kG E (mkKargs sz o o fin c None None None None NL) p) = kG_result E p (size_value sz (pn_sh p)) o fin c NL.
Proof.
  intro ER. destruct (eval_size_val sz _ _ _ ER) as [k HS].
  assert (HR := rebuild_inv _ _ _ _ ER). destruct HR as (Hin & Hr1 & Hm & _ & Hnx & Hny & Hl & HABD & _).
  unfold calc_kG. cbn [ka_size ka_row0 ka_col0 ka_fin ka_c ka_c_cte ka_nx ka_ny ka_F ka_NL is_some orb default].
  unfold mbind at 1. rewrite ER. unfold mbind at 1. rewrite HS. set (size := size_value sz (pn_sh p)).
  unfold kG_result. destruct (pn_N p) as [[Nxx Nyy] Nxy] eqn:EN.
  assert (HNc : pn_N p1 = (Nxx, Nyy, Nxy)) by (rewrite (si_N _ _ Hin); exact EN).
  unfold mbind at 1.
  replace (match c with None => mret (repeat 0 size) | Some c => mlift (check_c c size) end (set_size p1 k)) with
    (set_size p1 k, match c with None => Ok (repeat 0 size) | Some c => check_c c size end) by (destruct c; reflexivity).
  destruct (match c with None => Ok (repeat 0 size) | Some c => check_c c size end) as [cl|e]; cbn [rbind]; [|reflexivity].
  unfold mbind at 1. unfold the_model at 1. replace (pn_model (set_size p1 k)) with (Some (Known (chosen_model p))) by (symmetry; exact Hm).
  unfold mbind at 1, fix_r at 1, mmod at 1. unfold mbind at 1, mget at 1.
  set (pf := set_r (set_size p1 k) _).
  assert (Hv : kernel_view pf = kernel_view p) by (apply (kview E); [exact ER|reflexivity]).
  rewrite Hv. change (pn_N pf) with (pn_N p1). rewrite HNc.
  change (pn_nx pf) with (pn_nx p1). change (pn_ny pf) with (pn_ny p1). rewrite Hnx, Hny.
  unfold mbind at 1.
  destruct (is_some c || NL)%bool eqn:EB; cbn [negb].
  - unfold mbind at 1 2. unfold get_lam_ABD. change (pn_lam pf) with (pn_lam p1). rewrite Hl.
    change (pn_ortho pf) with (pn_ortho p1). rewrite (si_ortho _ _ Hin). unfold mret at 1. unfold mlift at 1.
    destruct (rbind (fkG_num _ _ _ _ _ _ _ _ _ _ _ _ _ _) _) as [kG|e]; reflexivity.
  - unfold mlift at 1. destruct (to_shape size _) as [kG|e]; reflexivity.
Qed.
Lemma kG_place E p o size fin c NL K0 : (forall l, c = Some (CVec l) -> length l = size) -> (o + ndof (pn_sh p) <= size)%nat ->
  kG_result E p (ndof (pn_sh p)) 0 fin (part o (ndof (pn_sh p)) c) NL = Ok K0 ->
  kG_result E p size o fin c NL = Ok (at_block o (ndof (pn_sh p)) K0).
Proof.
  intros Hlen Ho H. unfold kG_result in *. destruct (pn_N p) as [[Nxx Nyy] Nxy].
  apply rbind_inv in H. destruct H as [cl0 [Hc H]].
  assert (HC : exists cl, match c with None => Ok (repeat 0 size) | Some c => check_c c size end = Ok cl /\
    is_some (part o (ndof (pn_sh p)) c) = is_some c /\ forall k, (k < ndof (pn_sh p))%nat -> vec cl (o + k) = vec cl0 k).
  { destruct c as [[l| |]|]; cbn [part check_c] in *; try discriminate.
    - specialize (Hlen l eq_refl). destruct (_ =? _)%nat; [|discriminate]. injection Hc as <-. exists l. rewrite Hlen, Nat.eqb_refl.
      split; [reflexivity|]. split; [reflexivity|]. intros k Hk. apply slice_vec; exact Hk.
    - injection Hc as <-. eexists. split; [reflexivity|]. split; [reflexivity|]. intros k _. unfold vec. rewrite !nth_repeat. reflexivity. }
  destruct HC as (cl & -> & His & Hv). cbn [rbind]. rewrite His in H.
  apply rbind_inv in H. destruct H as [kG0 [HkG H]].
  assert (HkG' : (if (is_some c || NL)%bool
     then rbind (fkG_num (chosen_model p) (e_rule E) (e_basis E) (vec cl) (FMat (lam_matrix (pn_ortho p) (rebuilt_lam E p))) (kernel_view p) o o
                   (Nat.max (pn_nx p) (sh_m (pn_sh p))) (Nat.max (pn_ny p) (sh_n (pn_sh p))) NL Nxx Nyy Nxy) (to_shape size)
     else to_shape size (fkG0 (chosen_model p) (e_tables E) (kernel_view p) Nxx Nyy Nxy o o)) = Ok (shiftc o kG0)
     /\ in_shape (ndof (pn_sh p)) kG0 = true).
  { destruct (is_some c || NL)%bool.
    - apply rbind_inv in HkG. destruct HkG as [M [HM Hs]].
      erewrite fkG_num_shift by exact Hv. rewrite HM. cbn [rmap rbind]. apply (to_shape_shift _ _ _ _ _ Hs Ho).
    - rewrite fkG0_shift. apply (to_shape_shift _ _ _ _ _ HkG Ho). }
  destruct HkG' as [-> HsG]. cbn [rbind]. injection H as <-. f_equal. apply finalized_place. exact HsG.
Qed.

(* ------------------------------------------------- calc_kM *)
Definition kM_result (E : env) (p : panel) (size o : nat) (fin : bool) : res matrix :=
  rbind (to_shape size (fkM (chosen_model p) (e_tables E) (kernel_view p) (pn_rho p) (fold_left Rplus (pn_plyts p) 0) (pn_offset p) o o)) (fun kM =>
  Ok (finalized fin kM)).
Lemma calc_kM_result E sz o fin p : (exists mdl, pn_model p = Some (Known mdl)) -> pn_lam p <> None ->
  snd (calc_kM E sz o o None None None None fin p) = kM_result E p (size_value sz (pn_sh p)) o fin.
Proof.
  intros [mdl Hm] Hl. unfold calc_kM. unfold mbind at 1, mget at 1. cbv zeta. unfold mbind at 1, the_model at 1. rewrite Hm.
  unfold mbind at 1, fix_r at 1, mmod at 1. set (pf := set_r p _).
  assert (HS : exists k, eval_size sz pf = (set_size pf k, Ok (size_value sz (pn_sh p)))).
  { unfold size_value, eval_size, get_size, the_model, mbind, mget, mmod, mret.
    destruct sz; change (pn_model pf) with (pn_model p); rewrite ?Hm; [eexists; reflexivity|exists (pn_size pf); destruct pf; reflexivity|eexists; reflexivity]. }
  destruct HS as [k HS]. unfold mbind at 1. rewrite HS. unfold mbind at 1, mget at 1.
  change (pn_lam (set_size pf k)) with (pn_lam p). destruct (pn_lam p) as [lam|]; [|congruence]. cbn [default is_some orb negb].
  unfold mbind at 1, mlift at 1. unfold kM_result.
  replace (chosen_model p) with mdl by (unfold chosen_model; rewrite Hm; reflexivity).
  replace (kernel_view (set_size pf k)) with (kernel_view p) by (symmetry; apply view_eq; reflexivity).
  change (pn_rho (set_size pf k)) with (pn_rho p). change (pn_plyts (set_size pf k)) with (pn_plyts p). change (pn_offset (set_size pf k)) with (pn_offset p).
  destruct (to_shape _ _) as [M|e]; reflexivity.
Qed.
Lemma kM_place E p o size fin K0 : (o + ndof (pn_sh p) <= size)%nat ->
  kM_result E p (ndof (pn_sh p)) 0 fin = Ok K0 -> kM_result E p size o fin = Ok (at_block o (ndof (pn_sh p)) K0).
Proof.
  intros Ho H. unfold kM_result in *. apply rbind_inv in H. destruct H as [M [HM H]].
  rewrite fkM_shift. destruct (to_shape_shift _ _ _ _ _ HM Ho) as [-> Hs]. cbn [rbind]. injection H as <-. f_equal. apply finalized_place; exact Hs.
Qed.

(* ------------------------------------------------- calc_fint *)
Definition at_slice (o n : nat) (v : nat -> R) : nat -> R := fun k => if ((o <=? k) && (k <? o + n))%nat%bool then v (k - o)%nat else 0.
Lemma fint_within mdl Q Bs cs Fi s nx ny u : calc_fint_num mdl Q Bs cs Fi s 0 nx ny = Ok u -> forall t, In t u -> (fst t < ndof s)%nat.
Proof.
  assert (HR : forall X (x : res X) (f : X -> updates), rmap f x = Ok u -> exists a, u = f a).
  { intros X x f H. destruct x; cbn in H; [injection H as <-; eexists; reflexivity|discriminate]. }
  assert (HD : forall i j k, In j (seq 0 (sh_n s)) -> In i (seq 0 (sh_m s)) -> (k < 3)%nat -> (dofpos 0 (sh_m s) i j + k < ndof s)%nat).
  { intros i j k Hj Hi Hk. apply in_seq in Hj, Hi. unfold dofpos, ndof, DOF. assert (j * sh_m s + i < sh_m s * sh_n s)%nat by nia. lia. }
  intros H t Ht. destruct mdl; cbn [calc_fint_num] in H; [unfold plate_calc_fint in H|unfold cyl_calc_fint in H]; apply HR in H; destruct H as [F ->];
    apply in_flat_map in Ht; destruct Ht as (p & _ & Ht); cbv zeta in Ht; apply in_flat_map in Ht; destruct Ht as (j & Hj & Ht);
    apply in_flat_map in Ht; destruct Ht as (i & Hi & Ht); apply in_map_iff in Ht; destruct Ht as (q & <- & Hq); cbn [fst];
    (apply HD; [exact Hj|exact Hi|]); [unfold plate_calc_fint_ker in Hq|unfold cyl_calc_fint_ker in Hq]; cbv zeta in Hq;
    destruct Hq as [<-|[<-|[<-|[]]]]; cbn [fst]; lia.
Qed.
Lemma vdense_out n u r : (forall t, In t u -> (fst t < n)%nat) -> (n <= r)%nat -> vdense u r = 0.
Proof.
  intros H Hr. unfold vdense. induction u as [|[i v] u IH]; [reflexivity|]. cbn [suml fst snd].
  rewrite IH by (intros t Ht; apply H; right; exact Ht). specialize (H (i, v) (or_introl eq_refl)). cbn in H.
  replace (i =? r)%nat with false by (symmetry; apply Nat.eqb_neq; lia). lra.
Qed.
Lemma fint_state E c sz o q mdl : pn_model q = Some (Known mdl) -> exists k,
  calc_fint E c sz o None None None q =
  (set_r (set_size q k) (Some (default 0 (pn_r q))),
   rbind (calc_fint_num mdl (e_rule E) (e_basis E) (vec c) (match pn_ABD q with Some F => FMat F | None => FOther end) (kernel_view q) o (pn_nx q) (pn_ny q))
     (fun u => if ((length c <? o + ndof (pn_sh q)) || (size_value sz (pn_sh q) <? o + ndof (pn_sh q)))%nat%bool then Err OutOfBounds else Ok u)).
Proof.
  intro Hm. unfold calc_fint. unfold mbind at 1, mget at 1. rewrite Hm.
  assert (HS : exists k, eval_size sz q = (set_size q k, Ok (size_value sz (pn_sh q)))).
  { unfold size_value, eval_size, get_size, the_model, mbind, mget, mmod, mret.
    destruct sz; rewrite ?Hm; [eexists; reflexivity|exists (pn_size q); destruct q; reflexivity|eexists; reflexivity]. }
  destruct HS as [k HS]. exists k. unfold mbind at 1. rewrite HS. unfold mbind at 1, fix_r at 1, mmod at 1. unfold mbind at 1, mget at 1.
  set (pf := set_r (set_size q k) _). cbv zeta. unfold mbind at 1, mlift at 1. cbn [default].
  replace (kernel_view pf) with (kernel_view q) by (symmetry; apply view_eq; reflexivity).
  change (pn_ABD pf) with (pn_ABD q). change (pn_nx pf) with (pn_nx q). change (pn_ny pf) with (pn_ny q).
  change (o + DOF * (sh_m (pn_sh pf) * sh_n (pn_sh pf)))%nat with (o + ndof (pn_sh q))%nat.
  destruct (calc_fint_num _ _ _ _ _ _ _ _ _) as [u|e]; cbn [rbind]; [|reflexivity].
  destruct (_ || _)%bool; reflexivity.
Qed.
Lemma fint_place E c o size q q0 u0 : length c = size -> (o + ndof (pn_sh q) <= size)%nat ->
  calc_fint E (firstn (ndof (pn_sh q)) (skipn o c)) SNone 0 None None None q = (q0, Ok u0) ->
  exists q' u, calc_fint E c (SInt size) o None None None q = (q', Ok u) /\ vdense u = at_slice o (ndof (pn_sh q)) (vdense u0).
Proof.
  intros Hlen Ho H.
  assert (HM : exists mdl, pn_model q = Some (Known mdl)).
  { unfold calc_fint in H. unfold mbind at 1, mget at 1 in H. destruct (pn_model q) as [[mdl|]|]; [eauto|discriminate H|discriminate H]. }
  destruct HM as [mdl Hm]. destruct (fint_state E (firstn (ndof (pn_sh q)) (skipn o c)) SNone 0 q mdl Hm) as [k0 E0]. rewrite E0 in H. clear E0.
  destruct (fint_state E c (SInt size) o q mdl Hm) as [k E1]. rewrite E1. clear E1.
  apply pair_equal_spec in H. destruct H as [_ H]. apply rbind_inv in H. destruct H as [u [Hu H]].
  rewrite (fint_shift (kernel_view q) o (vec c) (vec (firstn (ndof (pn_sh q)) (skipn o c)))).
  2:{ intros k' Hk'. apply slice_vec. exact Hk'. }
  rewrite Hu. cbn [rmap rbind]. cbn [size_value]. rewrite Hlen.
  replace (size <? o + ndof (pn_sh q))%nat with false by (symmetry; apply Nat.ltb_ge; lia). cbn [orb].
  eexists. eexists. split; [reflexivity|]. destruct (_ || _)%bool in H; [discriminate|]. injection H as ->.
  extensionality r. rewrite vdense_shift. unfold at_slice. destruct (o <=? r)%nat eqn:A; cbn [andb]; [|reflexivity].
  apply Nat.leb_le in A. destruct (r <? o + ndof (pn_sh q))%nat eqn:B; [reflexivity|]. apply Nat.ltb_ge in B.
  apply (vdense_out (ndof (pn_sh q))); [|lia]. intros t Ht. rewrite <- ndof_view. eapply fint_within; eassumption.
Qed.

(* ------------------------------------------------- calc_fext *)
Lemma slice_add_place o n size v f0 f f0' : length f0 = n -> length f = size -> (o + n <= size)%nat -> vec f = at_slice o n (vec f0) ->
  slice_add 0 n v f0 = Ok f0' -> exists f', slice_add o n v f = Ok f' /\ length f0' = n /\ length f' = size /\ vec f' = at_slice o n (vec f0').
Proof.
  intros H0 H1 Ho Hv H. unfold slice_add in *. destruct (n =? 0)%nat eqn:En.
  { injection H as <-. eauto. }
  rewrite H0 in H. cbn [Nat.add] in H. rewrite Nat.leb_refl in H. injection H as <-.
  rewrite H1. replace (o + n <=? size)%nat with true by (symmetry; apply Nat.leb_le; exact Ho).
  eexists. split; [reflexivity|]. rewrite !map_length, !seq_length. split; [reflexivity|]. split; [reflexivity|].
  assert (HN : forall N (g : nat -> R) k, nth k (map g (seq 0 N)) 0 = if (k <? N)%nat then g k else 0).
  { intros N g k. destruct (k <? N)%nat eqn:Ek.
    - apply Nat.ltb_lt in Ek. rewrite (nth_indep _ 0 (g 0%nat)) by (rewrite map_length, seq_length; exact Ek).
      rewrite map_nth. rewrite seq_nth by exact Ek. reflexivity.
    - apply Nat.ltb_ge in Ek. apply nth_overflow. rewrite map_length, seq_length. exact Ek. }
  extensionality k. unfold vec at 1. rewrite HN.
  assert (Hk : nth k f 0 = at_slice o n (vec f0) k) by (rewrite <- Hv; reflexivity). rewrite Hk.
  unfold at_slice, vec. rewrite HN. cbn [Nat.leb andb Nat.add].
  destruct (o <=? k)%nat eqn:A; cbn [andb].
  - apply Nat.leb_le in A. destruct (k <? o + n)%nat eqn:B.
    + apply Nat.ltb_lt in B. replace (k <? size)%nat with true by (symmetry; apply Nat.ltb_lt; lia).
      replace (k - o <? n)%nat with true by (symmetry; apply Nat.ltb_lt; lia). rewrite Nat.sub_0_r. reflexivity.
    + destruct (k <? size)%nat; lra.
  - destruct (k <? size)%nat; lra.
Qed.
Section FextPlace.
Variables (Q : rule) (Bs : basis) (s : shell) (o n size : nat).
Hypothesis Ho : (o + n <= size)%nat.
Definition related (st0 st : fstate) : Prop := fst st0 = fst st /\ length (snd st0) = n /\ length (snd st) = size /\ vec (snd st) = at_slice o n (vec (snd st0)).
Definition simulates {A} (b0 b : fstate -> A -> res fstate) : Prop := forall st0 st x st0', related st0 st -> b0 st0 x = Ok st0' -> exists st', b st x = Ok st' /\ related st0' st'.
Lemma rfold_sim {A} (b0 b : fstate -> A -> res fstate) l : simulates b0 b -> simulates (fun st _ => rfold b0 l st) (fun st (_ : unit) => rfold b l st).
Proof using .
  intro H. induction l as [|x l IH]; intros st0 st u st0' HR H0.
  - injection H0 as <-. exists st. split; [reflexivity|exact HR].
  - cbn [rfold] in *. apply rbind_inv in H0. destruct H0 as [st1 [H1 H2]]. destruct (H _ _ _ _ HR H1) as (st1' & -> & HR'). cbn [rbind]. apply (IH _ _ u _ HR' H2).
Qed.
Lemma add_at_sim wt x y fx fy fz inc : forall st0 st st0', related st0 st -> add_at Bs s 0 n wt x y fx fy fz inc st0 = Ok st0' ->
  exists st', add_at Bs s o n wt x y fx fy fz inc st = Ok st' /\ related st0' st'.
Proof using Ho.
  intros st0 st st0' (R1 & R2 & R3 & R4) H. unfold add_at in *. rewrite <- R1. apply rbind_inv in H. destruct H as [g [-> H]]. cbn [rbind].
  apply rbind_inv in H. destruct H as [f [Hf H]]. injection H as <-.
  destruct (slice_add_place _ _ _ _ _ _ _ R2 R3 Ho R4 Hf) as (f' & -> & L0 & L1 & V). cbn [rbind]. eexists. split; [reflexivity|]. repeat split; assumption.
Qed.
Lemma point_sim : simulates (point_step Bs s 0 n) (point_step Bs s o n).
Proof using Ho. intros st0 st x st0' HR H. unfold point_step in *. eapply add_at_sim; eassumption. Qed.
Lemma distr_sim : simulates (distr_step Q Bs s 0 n) (distr_step Q Bs s o n).
Proof using Ho.
  intros st0 st l st0' HR H. unfold distr_step in *. destruct (dl_x (fst l)), (dl_y (fst l)); try discriminate;
    (refine (rfold_sim _ _ _ _ st0 st tt _ HR H); intros a b q a' HR' H'; cbv zeta in *; eapply add_at_sim; eassumption).
Qed.
Lemma fext_sim L inc st0 st st0' : related st0 st -> fext_loops Q Bs s 0 n L inc st0 = Ok st0' -> exists st', fext_loops Q Bs s o n L inc st = Ok st' /\ related st0' st'.
Proof using Ho.
  intros HR H. unfold fext_loops in *.
  apply rbind_inv in H. destruct H as [a [Ha H]]. destruct (rfold_sim _ _ _ point_sim _ _ tt _ HR Ha) as (a' & -> & Ra). cbn [rbind].
  apply rbind_inv in H. destruct H as [b [Hb H]]. destruct (rfold_sim _ _ _ distr_sim _ _ tt _ Ra Hb) as (b' & -> & Rb). cbn [rbind].
  apply rbind_inv in H. destruct H as [c [Hc H]]. destruct (rfold_sim _ _ _ point_sim _ _ tt _ Rb Hc) as (c' & -> & Rc). cbn [rbind].
  apply (rfold_sim _ _ _ distr_sim _ _ tt _ Rc H).
Qed.
End FextPlace.
Lemma fext_place E Bv L inc o size p p0 f0 : (o + ndof (pn_sh p) <= size)%nat ->
  calc_fext E Bv L inc SNone 0 p = (p0, Ok f0) ->
  exists p' f, calc_fext E Bv L inc (SInt size) o p = (p', Ok f) /\ length f = size /\ vec f = at_slice o (ndof (pn_sh p)) (vec f0).
Proof.
  intros Ho H. unfold calc_fext in *. unfold mbind at 1 in H. unfold mbind at 1. destruct (rebuild E p) as [p1 [[]|]] eqn:ER; [|discriminate].
  assert (HR := rebuild_inv _ _ _ _ ER). destruct HR as (Hin & _ & Hm & _). assert (Hsh := si_sh _ _ Hin).
  unfold shell_fext in *. unfold mbind at 1, mget at 1 in H. unfold mbind at 1, mget at 1. rewrite Hm in *.
  destruct (eval_size_val SNone _ _ _ ER) as [k0 HS0]. unfold mbind at 1 in H. rewrite HS0 in H.
  unfold mbind at 1. change (eval_size (SInt size) p1) with (p1, Ok size).
  unfold mbind at 1 in H. unfold mbind at 1.
  assert (HG : forall q k, q = set_size p1 k -> exists k', get_size q = (set_size p1 k', Ok (ndof (pn_sh p)))).
  { intros q k ->. unfold get_size, the_model, mbind, mget, mmod, mret. change (pn_model (set_size p1 k)) with (pn_model p1). rewrite Hm.
    cbn [db_dofs]. change (pn_sh (set_size p1 k)) with (pn_sh p1). rewrite Hsh. change (db_dofs (chosen_model p)) with 3%nat. rewrite <- Nat.mul_assoc. eexists. reflexivity. }
  destruct (HG _ k0 eq_refl) as [k1 HG1]. rewrite HG1 in H.
  destruct (HG p1 (pn_size p1) ltac:(destruct p1; reflexivity)) as [k2 HG2]. rewrite HG2.
  unfold mbind at 1, mget at 1 in H. unfold mbind at 1, mget at 1. unfold mlift in *.
  assert (HV : forall k, kernel_view (set_size p1 k) = kernel_view p1) by (intro; reflexivity).
  rewrite HV in *. apply pair_equal_spec in H. destruct H as [_ H].
  destruct (fext_loops _ _ _ 0 _ _ _ _) as [st0|] eqn:EL; [|discriminate]. cbn in H. injection H as <-.
  rewrite size_none in EL.
  destruct (fext_sim (e_rule E) Bv (kernel_view p1) o (ndof (pn_sh p)) size Ho L inc (zeros_g, repeat 0 (ndof (pn_sh p))) (zeros_g, repeat 0 size) _ ltac:(
    split; [reflexivity|]; cbn [snd]; rewrite !repeat_length; split; [reflexivity|]; split; [reflexivity|];
    extensionality k; unfold vec, at_slice; rewrite !nth_repeat; destruct (_ && _)%bool; reflexivity) EL) as (st' & -> & (_ & _ & L1 & V1)).
  cbn. eexists. eexists. split; [reflexivity|]. split; assumption.
Qed.
