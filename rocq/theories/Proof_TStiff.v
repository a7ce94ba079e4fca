(* The fifteen panels of a T-stiffened panel. *)
From Coq Require Import Reals List Arith Bool Lra Lia.
From Coquelicot Require Import Coquelicot.
From Verif Require Import Base_Sum Model_Types Model_Coo Model_Result Model_Num Model_DB Model_Shell Model_Fext Model_Multi Model_New Model_Cylinder Model_TStiff
  Spec_Algebra Spec_Integral Spec_Panel Spec_Shell Spec_Fext Spec_Conn Spec_Multi Spec_MultiConn Spec_Cylinder Spec_TStiff Proof_MultiTop Proof_MultiApi Proof_Cylinder.
Import ListNotations.
Open Scope R_scope.

(* ------------------------------------------------- sizes *)
Section Sizes.
Variable D : tstiff.
Hypothesis HD : well_sized D.
Lemma defect_pos : 0 < defect D < ts_a D.
Proof using HD.
  destruct HD as (H1 & _ & _ & _ & _ & H2 & H3). unfold defect. destruct (Req_EM_T _ _) as [E|E]; [split; lra|]. split.
  - apply Rmult_lt_0_compat; [|exact H1]. destruct (Rle_lt_or_eq_dec 0 (ts_defect_a D) H2) as [H|H]; [exact H|]. exfalso. apply E. rewrite <- H. ring.
  - rewrite <- (Rmult_1_l (ts_a D)) at 2. apply Rmult_lt_compat_r; assumption.
Qed.
Lemma sizes : 0 < defect D /\ 0 < aup D /\ 0 < alow D /\ 0 < bleft D /\ 0 < bright D /\ 0 < ts_bb D /\ 0 < ts_bf D /\
  alow D + defect D + aup D = ts_a D /\ aup D = alow D /\ ts_ys D - ts_bb D / 2 = bright D /\ ts_ys D + ts_bb D / 2 = bright D + ts_bb D /\ bright D + ts_bb D + bleft D = ts_b D.
Proof using HD.
  destruct HD as (H1 & H2 & H3 & H4 & H5 & H6). pose proof defect_pos as [P1 P2]. unfold aup, alow, bleft, bright.
  repeat split; lra.
Qed.
End Sizes.
Lemma alow_ok D : 0 < ts_defect_a D -> 0 < ts_a D -> alow D = (ts_a D - ts_defect_a D * ts_a D) / 2 /\ alow D + defect D = (ts_a D + ts_defect_a D * ts_a D) / 2.
Proof.
  intros H1 H2. unfold alow, defect. destruct (Req_EM_T _ _) as [E|E]; [|split; field].
  exfalso. apply Rmult_integral in E. lra.
Qed.

(* ------------------------------------------------- the panels *)
Lemma flags_sh e i p : let s := pn_sh (ts_flags e i p) in let s0 := pn_sh p in
  sh_a s = sh_a s0 /\ sh_b s = sh_b s0 /\ sh_m s = sh_m s0 /\ sh_n s = sh_n s0.
Proof. do 16 (destruct i as [|i]; [repeat split|]). repeat split. Qed.
Lemma points_sh p o : pn_sh (with_points p o) = pn_sh p.
Proof. destruct o as [[? ?]|]; reflexivity. Qed.
Lemma skin_len D i x0 y0 l v : len (skin D i x0 y0 l v) = l /\ wid (skin D i x0 y0 l v) = v.
Proof. unfold len, wid, skin. cbn [np_panel]. destruct (flags_sh (ts_e D) i (with_Nxx (with_points (new_shell l v (ts_r D) (ts_stack_skin D) (Some (ts_plyt D)) (ts_prop D) (ts_rho D) (ts_m D) (ts_n D) 0)
    (option_map (fun t => fst (fst t)) (ts_points D))) (ts_Nskin D))) as (-> & -> & _). unfold with_Nxx. cbn [pn_sh]. rewrite points_sh. split; reflexivity. Qed.
Lemma base_len D i x0 y0 l v : len (tbase D i x0 y0 l v) = l /\ wid (tbase D i x0 y0 l v) = v.
Proof. unfold len, wid, tbase. cbn [np_panel]. destruct (flags_sh (ts_e D) i (with_Nxx (with_points (new_shell l v (ts_r D) (ts_stack_base D) (Some (ts_plyt D)) (ts_prop D) (ts_rho D) (ts_mb D) (ts_nb D) 0)
    (option_map (fun t => snd (fst t)) (ts_points D))) (ts_Nbase D))) as (-> & -> & _). unfold with_Nxx. cbn [pn_sh]. rewrite points_sh. split; reflexivity. Qed.
Lemma flange_len D i x0 y0 l v : len (tflange D i x0 y0 l v) = l /\ wid (tflange D i x0 y0 l v) = v.
Proof. unfold len, wid, tflange. cbn [np_panel]. destruct (flags_sh (ts_e D) i (with_Nxx (with_points (new_shell l v None (ts_stack_flange D) (Some (ts_plyt D)) (ts_prop D) (ts_rho D) (ts_mf D) (ts_nf D) 0)
    (option_map (fun t => snd t) (ts_points D))) (ts_Nflange D))) as (-> & -> & _). unfold with_Nxx. cbn [pn_sh]. rewrite points_sh. split; reflexivity. Qed.
(* where the panels are *)
Definition place (D : tstiff) (i : nat) : (R * R) * (R * R) :=
  let xs := [(alow D + defect D, aup D); (alow D, defect D); (0, alow D)] in
  let ys := [(ts_ys D + ts_bb D / 2, bleft D); (ts_ys D - ts_bb D / 2, ts_bb D); (0, bright D)] in
  let f := (0, ts_bf D) in
  let z := (0, 0) in
  match i with
  | 1%nat => (nth 0 xs z, nth 0 ys z) | 2%nat => (nth 0 xs z, nth 1 ys z) | 3%nat => (nth 0 xs z, nth 2 ys z)
  | 4%nat => (nth 1 xs z, nth 0 ys z) | 5%nat => (nth 1 xs z, nth 1 ys z) | 6%nat => (nth 1 xs z, nth 2 ys z)
  | 7%nat => (nth 2 xs z, nth 0 ys z) | 8%nat => (nth 2 xs z, nth 1 ys z) | 9%nat => (nth 2 xs z, nth 2 ys z)
  | 10%nat => (nth 0 xs z, nth 1 ys z) | 11%nat => (nth 0 xs z, f)
  | 12%nat => (nth 1 xs z, nth 1 ys z) | 13%nat => (nth 1 xs z, f)
  | 14%nat => (nth 2 xs z, nth 1 ys z) | _ => (nth 2 xs z, f)
  end.
Lemma fifteen (P : nat -> Prop) : P 1%nat -> P 2%nat -> P 3%nat -> P 4%nat -> P 5%nat -> P 6%nat -> P 7%nat -> P 8%nat -> P 9%nat ->
  P 10%nat -> P 11%nat -> P 12%nat -> P 13%nat -> P 14%nat -> P 15%nat -> forall i, (1 <= i <= 15)%nat -> P i.
Proof. intros. do 16 (destruct i as [|i]; [first [assumption|lia]|]). lia. Qed.
Lemma panel_place D i : (1 <= i <= 15)%nat -> let q := panel_no D i in
  np_x0 q = fst (fst (place D i)) /\ len q = snd (fst (place D i)) /\ np_y0 q = fst (snd (place D i)) /\ wid q = snd (snd (place D i)).
Proof.
  revert i. apply (fifteen (fun i => let q := panel_no D i in
  np_x0 q = fst (fst (place D i)) /\ len q = snd (fst (place D i)) /\ np_y0 q = fst (snd (place D i)) /\ wid q = snd (snd (place D i))));
  cbv zeta; unfold panel_no; cbn [Nat.sub nth ts_panels place fst snd]; rewrite ?(proj1 (skin_len _ _ _ _ _ _)), ?(proj2 (skin_len _ _ _ _ _ _)), ?(proj1 (base_len _ _ _ _ _ _)), ?(proj2 (base_len _ _ _ _ _ _)),
    ?(proj1 (flange_len _ _ _ _ _ _)), ?(proj2 (flange_len _ _ _ _ _ _)); split; reflexivity || (split; reflexivity || (split; reflexivity)).
Qed.

(* ------------------------------------------------- the grid of the skin *)
Section Grid.
Variable D : tstiff.
Hypothesis HD : well_sized D.
Lemma nine (P : nat -> Prop) : P 1%nat -> P 2%nat -> P 3%nat -> P 4%nat -> P 5%nat -> P 6%nat -> P 7%nat -> P 8%nat -> P 9%nat -> forall i, (1 <= i <= 9)%nat -> P i.
Proof using Type.
  intros. do 10 (destruct i as [|i]; [first [assumption|lia]|]). lia.
Qed.
Lemma covers_place i x y : (1 <= i <= 15)%nat -> covers (panel_no D i) x y <->
  (fst (fst (place D i)) <= x <= fst (fst (place D i)) + snd (fst (place D i)) /\ fst (snd (place D i)) <= y <= fst (snd (place D i)) + snd (snd (place D i))).
Proof using Type. intro Hi. unfold covers. destruct (panel_place D i Hi) as (-> & -> & -> & ->). reflexivity. Qed.
Lemma inside_place i x y : (1 <= i <= 15)%nat -> inside (panel_no D i) x y <->
  (fst (fst (place D i)) < x < fst (fst (place D i)) + snd (fst (place D i)) /\ fst (snd (place D i)) < y < fst (snd (place D i)) + snd (snd (place D i))).
Proof using Type. intro Hi. unfold inside. destruct (panel_place D i Hi) as (-> & -> & -> & ->). reflexivity. Qed.
Ltac go_place n := exists n; split; [lia|apply covers_place; [lia|cbn [place fst snd nth]; lra]].
Lemma grid_covers x y : 0 <= x <= ts_a D -> 0 <= y <= ts_b D -> exists i, (1 <= i <= 9)%nat /\ covers (panel_no D i) x y.
Proof using HD.
  intros Hx Hy. destruct (sizes D HD) as (S1 & S2 & S3 & S4 & S5 & S6 & S7 & E1 & E2 & E3 & E4 & E5).
  destruct (Rle_dec x (alow D)) as [X1|X1]; [|destruct (Rle_dec x (alow D + defect D)) as [X2|X2]];
    (destruct (Rle_dec y (bright D)) as [Y1|Y1]; [|destruct (Rle_dec y (bright D + ts_bb D)) as [Y2|Y2]]).
  - go_place 9%nat.
  - go_place 8%nat.
  - go_place 7%nat.
  - go_place 6%nat.
  - go_place 5%nat.
  - go_place 4%nat.
  - go_place 3%nat.
  - go_place 2%nat.
  - go_place 1%nat.
Qed.
Lemma grid_within i x y : (1 <= i <= 9)%nat -> covers (panel_no D i) x y -> 0 <= x <= ts_a D /\ 0 <= y <= ts_b D.
Proof using HD.
  destruct (sizes D HD) as (S1 & S2 & S3 & S4 & S5 & S6 & S7 & E1 & E2 & E3 & E4 & E5).
  intros Hi H. apply covers_place in H; [|lia]. revert i Hi H.
  apply (nine (fun i => fst (fst (place D i)) <= x <= fst (fst (place D i)) + snd (fst (place D i)) /\ fst (snd (place D i)) <= y <= fst (snd (place D i)) + snd (snd (place D i)) -> 0 <= x <= ts_a D /\ 0 <= y <= ts_b D));
   cbn [place fst snd nth]; intros [H1 H2]; lra.
Qed.
Lemma grid_apart i j x y : (1 <= i <= 9)%nat -> (1 <= j <= 9)%nat -> inside (panel_no D i) x y -> inside (panel_no D j) x y -> i = j.
Proof using HD.
  destruct (sizes D HD) as (S1 & S2 & S3 & S4 & S5 & S6 & S7 & E1 & E2 & E3 & E4 & E5).
  intros Hi Hj H H'. apply inside_place in H; [|lia]. apply inside_place in H'; [|lia].
  destruct i as [|[|[|[|[|[|[|[|[|[|i]]]]]]]]]]; try lia; destruct j as [|[|[|[|[|[|[|[|[|[|j]]]]]]]]]]; try lia; try reflexivity;
  exfalso; cbn [place fst snd nth] in H, H'; destruct H, H'; lra.
Qed.
End Grid.

(* ------------------------------------------------- the connections *)
Lemma debond_has D : has_defect D = true <-> 0 < ts_defect_a D * ts_a D.
Proof. unfold has_defect. destruct (Rlt_dec _ _); split; intro; try discriminate; try reflexivity; try assumption; contradiction. Qed.
Definition group_no (i : nat) : nat := if (i <=? 9)%nat then 0%nat else if Nat.even i then 1%nat else 2%nat.
Lemma panel_group D i : (1 <= i <= 15)%nat -> np_group (panel_no D i) = group_no i.
Proof. revert i. apply (fifteen (fun i => np_group (panel_no D i) = group_no i)); reflexivity. Qed.
Section Conns.
Variable D : tstiff.
Hypothesis HD : well_sized D.
Variable k : nat.
Notation p i := (k + (i - 1))%nat.
Lemma debonded_span x : has_defect D = true -> alow D < x < alow D + defect D -> debonded D x.
Proof using HD.
  intros H1 H2. apply debond_has in H1. unfold debonded. cbv zeta. split; [exact H1|]. revert H2. unfold alow, defect. destruct (Req_EM_T _ _); [lra|]. intro. lra.
Qed.
Lemma bonded_span x : debonded D x -> has_defect D = true /\ alow D < x < alow D + defect D.
Proof using HD.
  unfold debonded. cbv zeta. intros [H1 H2]. split; [apply debond_has; exact H1|]. unfold alow, defect. destruct (Req_EM_T _ _); [lra|]. lra.
Qed.
Lemma valid_in cn : In cn (valid_conns D k) <-> exists f, In (f, cn) (ts_conns D k) /\ (f = true -> has_defect D = false).
Proof using Type.
  unfold valid_conns. rewrite in_map_iff. split.
  - intros ([f c] & <- & H). apply filter_In in H as [H1 H2]. exists f. split; [exact H1|]. intros ->. cbn in H2. destruct (has_defect D); [discriminate|reflexivity].
  - intros (f & H1 & H2). exists (f, cn). split; [reflexivity|]. apply filter_In. split; [exact H1|]. cbn. destruct f; [rewrite H2 by reflexivity|]; reflexivity.
Qed.
Lemma meets_place cn : meets D k cn <-> exists i j, (1 <= i <= 15)%nat /\ (1 <= j <= 15)%nat /\
    let xi := fst (fst (place D i)) in let li := snd (fst (place D i)) in let yi := fst (snd (place D i)) in let wi := snd (snd (place D i)) in
    let xj := fst (fst (place D j)) in let lj := snd (fst (place D j)) in let yj := fst (snd (place D j)) in let wj := snd (snd (place D j)) in
    (group_no i = group_no j /\ (xi = xj /\ li = lj /\ yi = yj + wj) /\ cn = mkConn (p i) (p j) SSycte None None (Some 0) (Some wj) None) \/
    (group_no i = group_no j /\ (yi = yj /\ wi = wj /\ xi = xj + lj) /\ cn = mkConn (p i) (p j) SSxcte (Some 0) (Some lj) None None None) \/
    (group_no i = 0%nat /\ group_no j = 1%nat /\ (xi = xj /\ yi = yj /\ li = lj /\ wi = wj) /\ (forall x, xi < x < xi + li -> ~ debonded D x) /\
       cn = mkConn (p i) (p j) SB None None None None None) \/
    (group_no i = 1%nat /\ group_no j = 2%nat /\ xi = xj /\ li = lj /\
       cn = mkConn (p i) (p j) BFycte None None (Some (wi / 2)) (Some 0) None).
Proof using Type.
  unfold meets, left_of, above, over. split; intros (i & j & Hi & Hj & H); exists i, j; (split; [exact Hi|split; [exact Hj|]]); cbv zeta in *;
  destruct (panel_place D i Hi) as (A1 & A2 & A3 & A4), (panel_place D j Hj) as (B1 & B2 & B3 & B4);
  rewrite <- ?A1, <- ?A2, <- ?A3, <- ?A4, <- ?B1, <- ?B2, <- ?B3, <- ?B4 in *; rewrite !panel_group in * by assumption; exact H.
Qed.
Ltac yes i j := exists i, j; split; [lia|split; [lia|]]; cbn [place fst snd nth group_no Nat.leb Nat.even]; cbv zeta.
Lemma conns_meet cn : In cn (valid_conns D k) -> meets D k cn.
Proof using HD.
  destruct (sizes D HD) as (S1 & S2 & S3 & S4 & S5 & S6 & S7 & E1 & E2 & E3 & E4 & E5).
  intro H. apply valid_in in H as (f & H & Hf). apply meets_place.
  unfold ts_conns, ssy, ssx, sb, bfy in H.
  cbn [In] in H. repeat (destruct H as [H|H]; [injection H as <- <-|]); [..|contradiction].
  - yes 1%nat 2%nat. left. repeat split; lra.
  - yes 1%nat 4%nat. right. left. repeat split; lra.
  - yes 2%nat 3%nat. left. repeat split; lra.
  - yes 2%nat 5%nat. right. left. repeat split; lra.
  - yes 3%nat 6%nat. right. left. repeat split; lra.
  - yes 4%nat 5%nat. left. repeat split; lra.
  - yes 4%nat 7%nat. right. left. repeat split; lra.
  - yes 5%nat 6%nat. left. repeat split; lra.
  - yes 5%nat 8%nat. right. left. repeat split; lra.
  - yes 6%nat 9%nat. right. left. repeat split; lra.
  - yes 7%nat 8%nat. left. repeat split; lra.
  - yes 8%nat 9%nat. left. repeat split; lra.
  - yes 2%nat 10%nat. right. right. left. repeat split. intros x Hx B. apply bonded_span in B as [_ B]. lra.
  - yes 5%nat 12%nat. right. right. left. repeat split. intros x Hx B. apply bonded_span in B as [B _]. rewrite Hf in B by reflexivity. discriminate.
  - yes 8%nat 14%nat. right. right. left. repeat split. intros x Hx B. apply bonded_span in B as [_ B]. lra.
  - yes 10%nat 12%nat. right. left. repeat split; lra.
  - yes 12%nat 14%nat. right. left. repeat split; lra.
  - yes 10%nat 11%nat. right. right. right. repeat split.
  - yes 12%nat 13%nat. right. right. right. repeat split.
  - yes 14%nat 15%nat. right. right. right. repeat split.
  - yes 11%nat 13%nat. right. left. repeat split; lra.
  - yes 13%nat 15%nat. right. left. repeat split; lra.
Qed.
Lemma in_conns f cn : In (f, cn) (ts_conns D k) -> (f = true -> has_defect D = false) -> In cn (valid_conns D k).
Proof using Type. intros. apply valid_in. exists f. split; assumption. Qed.
Lemma meet_conns cn : meets D k cn -> In cn (valid_conns D k).
Proof using HD.
  destruct (sizes D HD) as (S1 & S2 & S3 & S4 & S5 & S6 & S7 & E1 & E2 & E3 & E4 & E5).
  intro H. apply meets_place in H as (i & j & Hi & Hj & H). cbv zeta in H. destruct H as [(G & (H1 & H2 & H3) & ->)|[(G & (H1 & H2 & H3) & ->)|[(G1 & G2 & (H1 & H2 & H3 & H4) & H5 & ->)|(G1 & G2 & H1 & H2 & ->)]]].
  - destruct i as [|[|[|[|[|[|[|[|[|[|[|[|[|[|[|[|i]]]]]]]]]]]]]]]]; try lia; destruct j as [|[|[|[|[|[|[|[|[|[|[|[|[|[|[|[|j]]]]]]]]]]]]]]]]; try lia; try discriminate G;
    cbn [place fst snd nth] in *; try (exfalso; lra); apply (in_conns false); try discriminate; unfold ts_conns; cbn [In]; tauto.
  - destruct i as [|[|[|[|[|[|[|[|[|[|[|[|[|[|[|[|i]]]]]]]]]]]]]]]]; try lia; destruct j as [|[|[|[|[|[|[|[|[|[|[|[|[|[|[|[|j]]]]]]]]]]]]]]]]; try lia; try discriminate G;
    cbn [place fst snd nth] in *; try (exfalso; lra); apply (in_conns false); try discriminate; unfold ts_conns; cbn [In]; tauto.
  - destruct i as [|[|[|[|[|[|[|[|[|[|[|[|[|[|[|[|i]]]]]]]]]]]]]]]]; try lia; try discriminate G1; destruct j as [|[|[|[|[|[|[|[|[|[|[|[|[|[|[|[|j]]]]]]]]]]]]]]]]; try lia; try discriminate G2;
    cbn [place fst snd nth] in *; try (exfalso; lra); (apply (in_conns false); [unfold ts_conns; cbn [In]; tauto|discriminate]) || (apply (in_conns true); [unfold ts_conns; cbn [In]; tauto|]).
    intros _. destruct (has_defect D) eqn:Eh; [|reflexivity]. exfalso. apply (H5 (alow D + defect D / 2)); [lra|]. apply debonded_span; [exact Eh|lra].
  - destruct i as [|[|[|[|[|[|[|[|[|[|[|[|[|[|[|[|i]]]]]]]]]]]]]]]]; try lia; try discriminate G1; destruct j as [|[|[|[|[|[|[|[|[|[|[|[|[|[|[|[|j]]]]]]]]]]]]]]]]; try lia; try discriminate G2;
    cbn [place fst snd nth] in *; try (exfalso; lra); apply (in_conns false); try discriminate; unfold ts_conns; cbn [In]; tauto.
Qed.
Lemma conns_once : NoDup (valid_conns D k).
Proof using Type.
  assert (N : NoDup (map (fun fc => (cn_p1 (snd fc), cn_p2 (snd fc))) (ts_conns D k))).
  { unfold ts_conns, ssy, ssx, sb, bfy. cbn [map fst snd cn_p1 cn_p2].
    repeat (constructor; [cbn [In]; intro H; repeat (destruct H as [H|H]; [apply pair_equal_spec in H as [H H']; lia|]); contradiction|]). constructor. }
  unfold valid_conns. induction (ts_conns D k) as [|[f c] l IH]; [constructor|]. cbn [map] in N. inversion N as [|? ? N1 N2]; subst. cbn [filter].
  destruct (negb _); [|apply IH; exact N2]. cbn [map]. constructor; [|apply IH; exact N2]. cbn [snd]. intro H. apply N1.
  apply in_map_iff in H as ([f' c'] & E & H). cbn in E. subst c'. apply filter_In in H as [H _]. apply in_map_iff. exists (f', c). split; [reflexivity|exact H].
Qed.
End Conns.

(* ------------------------------------------------- the stiffener *)
Lemma stiffener_places D : well_sized D ->
  (forall i, (1 <= i <= 15)%nat -> 0 < len (panel_no D i) /\ 0 < wid (panel_no D i)) /\
  (forall x y, 0 <= x <= ts_a D /\ ts_ys D - ts_bb D / 2 <= y <= ts_ys D + ts_bb D / 2 <-> exists i, In i [10; 12; 14]%nat /\ covers (panel_no D i) x y) /\
  (forall x z, 0 <= x <= ts_a D /\ 0 <= z <= ts_bf D <-> exists i, In i [11; 13; 15]%nat /\ covers (panel_no D i) x z) /\
  (forall i j x y, In i [10; 12; 14]%nat /\ In j [10; 12; 14]%nat \/ In i [11; 13; 15]%nat /\ In j [11; 13; 15]%nat -> inside (panel_no D i) x y -> inside (panel_no D j) x y -> i = j) /\
  (forall i, (1 <= i <= 15)%nat -> np_group (panel_no D i) = if (i <=? 9)%nat then 0%nat else if Nat.even i then 1%nat else 2%nat).
Proof.
  intro HD. destruct (sizes D HD) as (S1 & S2 & S3 & S4 & S5 & S6 & S7 & E1 & E2 & E3 & E4 & E5). split; [|split; [|split; [|split]]].
  - intros i Hi. destruct (panel_place D i Hi) as (_ & -> & _ & ->). revert i Hi.
    apply (fifteen (fun i => 0 < snd (fst (place D i)) /\ 0 < snd (snd (place D i)))); cbn [place nth fst snd]; split; assumption.
  - intros x y. split.
    + intros [Hx Hy]. destruct (Rle_dec x (alow D)) as [X1|X1]; [|destruct (Rle_dec x (alow D + defect D)) as [X2|X2]].
      * exists 14%nat. split; [cbn; tauto|]. apply covers_place; [lia|]. cbn [place fst snd nth]. lra.
      * exists 12%nat. split; [cbn; tauto|]. apply covers_place; [lia|]. cbn [place fst snd nth]. lra.
      * exists 10%nat. split; [cbn; tauto|]. apply covers_place; [lia|]. cbn [place fst snd nth]. lra.
    + intros (i & Hi & HC). apply covers_place in HC; [|cbn in Hi; lia]. cbn [In] in Hi. destruct Hi as [<-|[<-|[<-|[]]]]; cbn [place fst snd nth] in HC; lra.
  - intros x y. split.
    + intros [Hx Hy]. destruct (Rle_dec x (alow D)) as [X1|X1]; [|destruct (Rle_dec x (alow D + defect D)) as [X2|X2]].
      * exists 15%nat. split; [cbn; tauto|]. apply covers_place; [lia|]. cbn [place fst snd nth]. lra.
      * exists 13%nat. split; [cbn; tauto|]. apply covers_place; [lia|]. cbn [place fst snd nth]. lra.
      * exists 11%nat. split; [cbn; tauto|]. apply covers_place; [lia|]. cbn [place fst snd nth]. lra.
    + intros (i & Hi & HC). apply covers_place in HC; [|cbn in Hi; lia]. cbn [In] in Hi. destruct Hi as [<-|[<-|[<-|[]]]]; cbn [place fst snd nth] in HC; lra.
  - intros i j x y H HI HJ. apply inside_place in HI; [|cbn in H; lia]. apply inside_place in HJ; [|cbn in H; lia]. cbn [In] in H.
    destruct H as [[Hi Hj]|[Hi Hj]]; destruct Hi as [<-|[<-|[<-|[]]]]; destruct Hj as [<-|[<-|[<-|[]]]]; try reflexivity; exfalso; cbn [place fst snd nth] in HI, HJ; lra.
  - exact (panel_group D).
Qed.
Lemma edge_flags D : well_sized D ->
  (forall i, (1 <= i <= 9)%nat -> let q := panel_no D i in
     (np_x0 q = 0 -> supported e1t (np_panel q) true) /\ (np_x0 q + len q = ts_a D -> supported e2t (np_panel q) true) /\
     (np_y0 q = 0 -> supported e1t (np_panel q) false) /\ (np_y0 q + wid q = ts_b D -> supported e2t (np_panel q) false)) /\
  (forall i j, (1 <= i <= 15)%nat -> (1 <= j <= 15)%nat -> let p := panel_no D i in let q := panel_no D j in np_group p = np_group q ->
     (left_of p q -> free_y1 p /\ free_y2 q) /\ (above p q -> free_x1 p /\ free_x2 q)).
Proof.
  intro HD. destruct (sizes D HD) as (S1 & S2 & S3 & S4 & S5 & S6 & S7 & E1 & E2 & E3 & E4 & E5). split.
  - intros i Hi. assert (Hi' : (1 <= i <= 15)%nat) by lia. destruct (panel_place D i Hi') as (P1 & P2 & P3 & P4). cbv zeta. rewrite P1, P2, P3, P4. clear P1 P2 P3 P4 Hi'.
    destruct i as [|[|[|[|[|[|[|[|[|[|i]]]]]]]]]]; try lia; cbn [place fst snd nth];
    (split; [intro; try (exfalso; lra)|split; [intro; try (exfalso; lra)|split; [intro; try (exfalso; lra)|intro; try (exfalso; lra)]]]); split; reflexivity.
  - intros i j Hi Hj. cbv zeta. intro G. rewrite !panel_group in G by assumption. destruct (panel_place D i Hi) as (P1 & P2 & P3 & P4), (panel_place D j Hj) as (Q1 & Q2 & Q3 & Q4).
    unfold left_of, above. rewrite P1, P2, P3, P4, Q1, Q2, Q3, Q4. clear P1 P2 P3 P4 Q1 Q2 Q3 Q4.
    destruct i as [|[|[|[|[|[|[|[|[|[|[|[|[|[|[|[|i]]]]]]]]]]]]]]]]; try lia; destruct j as [|[|[|[|[|[|[|[|[|[|[|[|[|[|[|[|j]]]]]]]]]]]]]]]]; try lia; try discriminate G;
    cbn [place fst snd nth]; (split; [intros (H1 & H2 & H3); try (exfalso; lra)|intros (H1 & H2 & H3); try (exfalso; lra)]);
    split; cbv zeta delta [free_x1 free_x2 free_y1 free_y2 edge_free]; repeat (constructor; [split; reflexivity|]); constructor.
Qed.
Lemma defect_conn' D k : well_sized D -> (In (mkConn (k + 4) (k + 11) SB None None None None None) (valid_conns D k) <-> ts_defect_a D = 0).
Proof.
  intro HD. rewrite valid_in. split.
  - intros (f & H & Hf). unfold ts_conns, ssy, ssx, sb, bfy in H. cbn [In] in H.
    assert (T : f = true).
    { repeat (destruct H as [H|H]; [injection H; intros; subst; first [reflexivity|exfalso; lia|discriminate]|]). contradiction. }
    specialize (Hf T). destruct HD as (Ha & _ & _ & _ & _ & Hd & _). destruct (Rle_lt_or_eq_dec _ _ Hd) as [Hd'|Hd']; [|symmetry; exact Hd'].
    exfalso. assert (0 < ts_defect_a D * ts_a D) by (apply Rmult_lt_0_compat; assumption). apply debond_has in H0. congruence.
  - intro H0. exists true. split; [unfold ts_conns, sb; cbn [In Nat.sub]; do 13 right; left; reflexivity|]. intros _.
    destruct (has_defect D) eqn:Eh; [|reflexivity]. apply debond_has in Eh. rewrite H0 in Eh. lra.
Qed.
Lemma loaded_edge D k i : well_sized D -> (1 <= i <= 15)%nat -> (In (k + (i - 1))%nat (loaded k) <-> np_x0 (panel_no D i) = 0).
Proof.
  intros HD Hi. destruct (sizes D HD) as (S1 & S2 & S3 & _). destruct (panel_place D i Hi) as (-> & _). unfold loaded. cbn [map In Nat.sub].
  destruct i as [|[|[|[|[|[|[|[|[|[|[|[|[|[|[|[|i]]]]]]]]]]]]]]]]; try lia; cbn [place fst snd nth Nat.sub]; split; intro H; try lia; try lra; exfalso; lra.
Qed.
