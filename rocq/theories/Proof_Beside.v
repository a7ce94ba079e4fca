From Coq Require Import Reals List Arith Bool Lra Lia.
From Verif Require Import Model_Types Model_Result Model_Shell Model_Bay Spec_Beside Proof_Bay.
Import ListNotations.
Open Scope R_scope.

Lemma req_ok x y : req x y = true <-> x = y.
Proof. unfold req. destruct (Req_EM_T x y); split; intro; try discriminate; auto; contradiction. Qed.
Lemma close_ok x y : isclose x y = true <-> close x y.
Proof. unfold isclose, close. destruct (Rle_dec _ _); split; intro; try discriminate; auto; contradiction. Qed.
Lemma close_no x y : isclose x y = false <-> ~ close x y.
Proof. rewrite <- close_ok. destruct (isclose x y); split; congruence. Qed.

(* the last element with a property, by a fold *)
Section Fold.
Variable P : panel -> bool.
Definition lastf (acc : option nat) (ip : nat * panel) : option nat := if P (snd ip) then Some (fst ip) else acc.
Lemma fold_last : forall l k acc i, fold_left lastf (combine (seq k (length l)) l) acc = Some i <->
  ((exists p, (k <= i)%nat /\ nth_error l (i - k) = Some p /\ P p = true /\ forall j q, (i - k < j)%nat -> nth_error l j = Some q -> P q = false) \/
   (acc = Some i /\ forall j q, nth_error l j = Some q -> P q = false)).
Proof using Type.
  induction l as [|x l IH]; intros k acc i.
  - cbn. split; [intro; right; split; [assumption|intros [|j] q; discriminate]|]. intros [(p & _ & H & _)|[H _]]; [destruct (i - k)%nat; discriminate|exact H].
  - cbn [length seq combine fold_left]. rewrite IH. unfold lastf at 1. cbn [fst snd]. split.
    + intros [(p & H1 & H2 & H3 & H4)|[H1 H2]].
      * left. exists p. split; [lia|]. replace (i - k)%nat with (S (i - S k)) by lia. split; [exact H2|]. split; [exact H3|].
        intros [|j] q Hj Hq; [lia|]. cbn in Hq. apply (H4 j q); [lia|exact Hq].
      * destruct (P x) eqn:Ex.
        -- injection H1 as <-. left. exists x. split; [lia|]. rewrite Nat.sub_diag. split; [reflexivity|]. split; [exact Ex|]. intros [|j] q Hj Hq; [lia|]. exact (H2 j q Hq).
        -- right. split; [exact H1|]. intros [|j] q Hq; [injection Hq as <-; exact Ex|exact (H2 j q Hq)].
    + intros [(p & H1 & H2 & H3 & H4)|[H1 H2]].
      * destruct (Nat.eq_dec i k) as [->|Hk].
        -- rewrite Nat.sub_diag in H2, H4. injection H2 as ->. rewrite H3. right. split; [reflexivity|]. intros j q Hq. apply (H4 (S j) q); [lia|exact Hq].
        -- left. exists p. split; [lia|]. replace (i - k)%nat with (S (i - S k)) in * by lia. split; [exact H2|]. split; [exact H3|]. intros j q Hj Hq. apply (H4 (S j) q); [lia|exact Hq].
      * right. rewrite (H2 0%nat x eq_refl). split; [exact H1|]. intros j q Hq. exact (H2 (S j) q Hq).
Qed.
Lemma fold_none l : fold_left lastf (combine (seq 0 (length l)) l) None = None <-> Forall (fun p => P p = false) l.
Proof using Type.
  split.
  - intro H. apply Forall_forall. intros p Hp. destruct (P p) eqn:E; [|reflexivity]. exfalso.
    assert (G : forall l k acc, (acc <> None \/ exists p, In p l /\ P p = true) -> fold_left lastf (combine (seq k (length l)) l) acc <> None).
    { induction l0 as [|x l0 IH]; intros k acc [H0|(z & Hz & Ez)]; [exact H0|destruct Hz| |]; cbn [length seq combine fold_left]; apply IH; unfold lastf; cbn [fst snd].
      - left. destruct (P x); [discriminate|exact H0].
      - destruct Hz as [->|Hz]; [left; rewrite Ez; discriminate|right; exists z; split; assumption]. }
    apply (G l 0%nat None); [right; exists p; split; assumption|exact H].
  - intro H. generalize 0%nat. induction l as [|x l IH]; intro k; [reflexivity|]. inversion H; subst. cbn [length seq combine fold_left]. unfold lastf at 2. cbn [snd]. rewrite H2. apply IH. exact H3.
Qed.
Lemma fold_last0 l i : fold_left lastf (combine (seq 0 (length l)) l) None = Some i <-> last_with (fun p => P p = true) l i.
Proof using Type.
  rewrite fold_last. rewrite Nat.sub_0_r. unfold last_with. split.
  - intros [(p & _ & H1 & H2 & H3)|[H _]]; [|discriminate]. exists p. split; [exact H1|]. split; [exact H2|]. intros j q Hj Hq. rewrite (H3 j q Hj Hq). discriminate.
  - intros (p & H1 & H2 & H3). left. exists p. split; [lia|]. split; [exact H1|]. split; [exact H2|]. intros j q Hj Hq. destruct (P q) eqn:E; [|reflexivity]. exfalso. exact (H3 j q Hj Hq E).
Qed.
End Fold.
Lemma last_iff P Q l i : (forall p, P p <-> Q p) -> last_with P l i <-> last_with Q l i.
Proof.
  intro H. unfold last_with. split; intros (p & H1 & H2 & H3); exists p; (split; [exact H1|]; split; [apply H; exact H2|]); intros j q Hj Hq HP; apply (H3 j q Hj Hq); apply H; exact HP.
Qed.
Lemma fold_pair P Q : forall (l : list (nat * panel)) a b, fold_left (fun acc ip => (lastf P (fst acc) ip, lastf Q (snd acc) ip)) l (a, b) = (fold_left (lastf P) l a, fold_left (lastf Q) l b).
Proof. induction l as [|x l IH]; intros; [reflexivity|]. cbn [fold_left]. rewrite IH. reflexivity. Qed.
Lemma fold_ext_in {A B} (f g : A -> B -> A) : forall l a, (forall a x, In x l -> f a x = g a x) -> fold_left f l a = fold_left g l a.
Proof. induction l as [|x l IH]; intros a H; [reflexivity|]. cbn [fold_left]. rewrite (H a x (or_introl eq_refl)). apply IH. intros b y Hy. apply H. right. exact Hy. Qed.

Section Bay.
Variable (B : bay) (ys : R).
Notation l := (by_panels B).
Notation numbered := (combine (seq 0 (length l)) l).
Lemma pick_inside : ~ close ys 0 -> ~ close ys (sh_b (by_sh B)) ->
  pick_panels B ys = (fold_left (lastf (fun p => req (sh_y2 (pn_sh p)) ys)) numbered None, fold_left (lastf (fun p => req (sh_y1 (pn_sh p)) ys)) numbered None).
Proof using Type.
  intros H0 Hb. rewrite <- fold_pair. unfold pick_panels. apply fold_ext_in. intros [u v] [i p] _. apply close_no in H0, Hb. rewrite H0, Hb. cbn [andb]. unfold lastf. cbn [fst snd].
  destruct (req (sh_y2 (pn_sh p)) ys), (req (sh_y1 (pn_sh p)) ys); reflexivity.
Qed.
Lemma pick_first : close ys 0 -> ~ close ys (sh_b (by_sh B)) -> Forall (fun p => ~ ends_at ys p) l ->
  pick_panels B ys = (fold_left (lastf (fun p => isclose (sh_y1 (pn_sh p)) ys)) numbered None, fold_left (lastf (fun p => isclose (sh_y1 (pn_sh p)) ys)) numbered None).
Proof using Type.
  intros H0 Hb HF. rewrite <- fold_pair. unfold pick_panels. apply fold_ext_in. intros [u v] [i p] Hin. apply close_ok in H0. apply close_no in Hb. rewrite H0, Hb. cbn [andb]. unfold lastf. cbn [fst snd].
  rewrite Forall_forall in HF. apply in_combine_r in Hin. specialize (HF p Hin). unfold ends_at in HF.
  destruct (req (sh_y2 (pn_sh p)) ys) eqn:E2; [apply req_ok in E2; contradiction|]. destruct (isclose (sh_y1 (pn_sh p)) ys) eqn:E1; [reflexivity|].
  destruct (req (sh_y1 (pn_sh p)) ys) eqn:E3; [|reflexivity]. apply req_ok in E3. apply close_no in E1. exfalso. apply E1. rewrite E3. unfold close. rewrite Rminus_diag_eq by reflexivity. rewrite Rabs_R0. pose proof (Rabs_pos ys). lra.
Qed.
Lemma pick_last : ~ close ys 0 -> close ys (sh_b (by_sh B)) -> Forall (fun p => ~ begins_at ys p) l ->
  pick_panels B ys = (fold_left (lastf (fun p => isclose (sh_y2 (pn_sh p)) ys)) numbered None, fold_left (lastf (fun p => isclose (sh_y2 (pn_sh p)) ys)) numbered None).
Proof using Type.
  intros H0 Hb HF. rewrite <- fold_pair. unfold pick_panels. apply fold_ext_in. intros [u v] [i p] Hin. apply close_no in H0. apply close_ok in Hb. rewrite H0, Hb. cbn [andb]. unfold lastf. cbn [fst snd].
  rewrite Forall_forall in HF. apply in_combine_r in Hin. specialize (HF p Hin). unfold begins_at in HF.
  destruct (req (sh_y1 (pn_sh p)) ys) eqn:E2; [apply req_ok in E2; contradiction|]. destruct (isclose (sh_y2 (pn_sh p)) ys) eqn:E1; [reflexivity|].
  destruct (req (sh_y2 (pn_sh p)) ys) eqn:E3; [|reflexivity]. apply req_ok in E3. apply close_no in E1. exfalso. apply E1. rewrite E3. unfold close. rewrite Rminus_diag_eq by reflexivity. rewrite Rabs_R0. pose proof (Rabs_pos ys). lra.
Qed.
Lemma find_of P Q i j : pick_panels B ys = (fold_left (lastf P) numbered None, fold_left (lastf Q) numbered None) ->
  (find_panels B ys = Ok (i, j) <-> last_with (fun p => P p = true) l i /\ last_with (fun p => Q p = true) l j) /\
  (find_panels B ys = Err RuntimeError <-> Forall (fun p => P p = false) l \/ Forall (fun p => Q p = false) l).
Proof using Type.
  intro H. assert (E : find_panels B ys = match pick_panels B ys with (Some i, Some j) => Ok (i, j) | _ => Err RuntimeError end).
  { unfold find_panels. destruct l eqn:El; [|reflexivity]. unfold pick_panels. rewrite El. reflexivity. }
  rewrite E, H, <- !fold_last0, <- !fold_none. split; split; intro K.
  - destruct (fold_left (lastf P) numbered None) as [i'|]; [|discriminate]. destruct (fold_left (lastf Q) numbered None) as [j'|]; [|discriminate]. injection K as -> ->. split; reflexivity.
  - destruct K as [-> ->]. reflexivity.
  - destruct (fold_left (lastf P) numbered None); [|left; reflexivity]. destruct (fold_left (lastf Q) numbered None); [discriminate|right; reflexivity].
  - destruct K as [->| ->]; [reflexivity|]. destruct (fold_left (lastf P) numbered None); reflexivity.
Qed.
Lemma beside_inside : ~ close ys 0 -> ~ close ys (sh_b (by_sh B)) ->
  (forall i j, find_panels B ys = Ok (i, j) <-> last_with (ends_at ys) l i /\ last_with (begins_at ys) l j) /\
  (find_panels B ys = Err RuntimeError <-> Forall (fun p => ~ ends_at ys p) l \/ Forall (fun p => ~ begins_at ys p) l).
Proof using Type.
  intros H0 Hb. assert (F := fun i j => find_of _ _ i j (pick_inside H0 Hb)). split.
  - intros i j. rewrite (proj1 (F i j)). rewrite (last_iff (fun p => req (sh_y2 (pn_sh p)) ys = true) (ends_at ys)) by (intro p; apply req_ok).
    rewrite (last_iff (fun p => req (sh_y1 (pn_sh p)) ys = true) (begins_at ys)) by (intro p; apply req_ok). reflexivity.
  - rewrite (proj2 (F 0%nat 0%nat)). assert (G : forall x y, req x y = false <-> x <> y) by (intros x y; rewrite <- (req_ok x y); destruct (req x y); split; congruence).
    rewrite !Forall_forall. split; (intros [K|K]; [left|right]); intros p Hp; apply G; apply K; exact Hp.
Qed.
Lemma beside_first : close ys 0 -> ~ close ys (sh_b (by_sh B)) -> Forall (fun p => ~ ends_at ys p) l ->
  forall i j, find_panels B ys = Ok (i, j) <-> i = j /\ last_with (fun p => close (sh_y1 (pn_sh p)) ys) l i.
Proof using Type.
  intros H0 Hb HF i j. rewrite (proj1 (find_of _ _ i j (pick_first H0 Hb HF))). rewrite !(last_iff (fun p => isclose (sh_y1 (pn_sh p)) ys = true) (fun p => close (sh_y1 (pn_sh p)) ys)) by (intro p; apply close_ok).
  split; [intros [K1 K2]|intros [-> K]; split; exact K]. split; [|exact K1]. destruct K1 as (p & P1 & P2 & P3), K2 as (p' & Q1 & Q2 & Q3).
  destruct (Nat.lt_trichotomy i j) as [H|[H|H]]; [exfalso; exact (P3 j p' H Q1 Q2)|exact H|exfalso; exact (Q3 i p H P1 P2)].
Qed.
Lemma beside_last : ~ close ys 0 -> close ys (sh_b (by_sh B)) -> Forall (fun p => ~ begins_at ys p) l ->
  forall i j, find_panels B ys = Ok (i, j) <-> i = j /\ last_with (fun p => close (sh_y2 (pn_sh p)) ys) l i.
Proof using Type.
  intros H0 Hb HF i j. rewrite (proj1 (find_of _ _ i j (pick_last H0 Hb HF))). rewrite !(last_iff (fun p => isclose (sh_y2 (pn_sh p)) ys = true) (fun p => close (sh_y2 (pn_sh p)) ys)) by (intro p; apply close_ok).
  split; [intros [K1 K2]|intros [-> K]; split; exact K]. split; [|exact K1]. destruct K1 as (p & P1 & P2 & P3), K2 as (p' & Q1 & Q2 & Q3).
  destruct (Nat.lt_trichotomy i j) as [H|[H|H]]; [exfalso; exact (P3 j p' H Q1 Q2)|exact H|exfalso; exact (Q3 i p H P1 P2)].
Qed.
End Bay.

(* a divided skin: the panel k and the panel k + 1 share the line where k ends *)
Lemma divides_after : forall l y k p, divides y l -> nth_error l k = Some p -> y <= sh_y1 (pn_sh p) /\ sh_y1 (pn_sh p) < sh_y2 (pn_sh p).
Proof.
  induction l as [|x l IH]; intros y k p HD Hk; [destruct k; discriminate|]. cbn in HD. destruct HD as (D1 & D2 & D3). destruct k as [|k].
  - injection Hk as <-. rewrite D1. split; [apply Rle_refl|exact D2].
  - destruct (IH _ _ _ D3 Hk) as [I1 I2]. split; [lra|exact I2].
Qed.
Lemma divides_lines : forall l y k p q, divides y l -> nth_error l k = Some p -> nth_error l (S k) = Some q ->
  last_with (ends_at (sh_y2 (pn_sh p))) l k /\ last_with (begins_at (sh_y2 (pn_sh p))) l (S k).
Proof.
  assert (G : forall l y k p, divides y l -> nth_error l k = Some p -> forall j q, (k < j)%nat -> nth_error l j = Some q -> sh_y2 (pn_sh p) <= sh_y1 (pn_sh q)).
  { induction l as [|x l IH]; intros y k p HD Hk j q Hj Hq; [destruct k; discriminate|]. cbn in HD. destruct HD as (D1 & D2 & D3). destruct j as [|j]; [lia|]. cbn in Hq. destruct k as [|k].
    - injection Hk as <-. destruct (divides_after _ _ _ _ D3 Hq). assumption.
    - cbn in Hk. apply (IH _ k p D3 Hk j q); [lia|exact Hq]. }
  assert (N : forall l y k p q, divides y l -> nth_error l k = Some p -> nth_error l (S k) = Some q -> sh_y1 (pn_sh q) = sh_y2 (pn_sh p)).
  { induction l as [|x l IH]; intros y k p q HD Hk Hq; [destruct k; discriminate|]. cbn in HD. destruct HD as (D1 & D2 & D3). destruct k as [|k].
    - injection Hk as <-. cbn in Hq. destruct l; [discriminate|]. injection Hq as ->. cbn in D3. apply D3.
    - exact (IH _ k p q D3 Hk Hq). }
  intros l y k p q HD Hk Hq. split.
  - exists p. split; [exact Hk|]. split; [reflexivity|]. intros j z Hj Hz E. unfold ends_at in E. pose proof (G _ _ _ _ HD Hk j z Hj Hz). destruct (divides_after _ _ _ _ HD Hz). lra.
  - exists q. split; [exact Hq|]. split; [exact (N _ _ _ _ _ HD Hk Hq)|]. intros j z Hj Hz E. unfold begins_at in E. pose proof (G _ _ _ _ HD Hq j z Hj Hz). destruct (divides_after _ _ _ _ HD Hq). rewrite (N _ _ _ _ _ HD Hk Hq) in *. lra.
Qed.

(* the stiffener keeps the panels found *)
Lemma s1_added V ys rho bb bf bd fd B B' : add_bladestiff1d V ys rho bb bf bd fd B = (B', Ok tt) ->
  exists i j s, find_panels B ys = Ok (i, j) /\ by_s1 B' = by_s1 B ++ [s] /\ s1_p1 s = i /\ s1_p2 s = j /\ s1_ys s = ys /\ by_panels B' = by_panels B.
Proof.
  unfold add_bladestiff1d. intro H. destruct (bind_run _ _ _ _ _ H) as [(B1 & a & H1 & H2)|(e & _ & HE)]; [|discriminate HE]. injection H1 as <- ->. clear H.
  destruct (bind_run _ _ _ _ _ H2) as [(B2 & b & H3 & H4)|(e & _ & HE)]; [|discriminate HE]. injection H3 as <- ->. clear H2.
  assert (H5 : bbind bget (fun B0 => bbind (blift (find_panels B0 ys)) (fun ij => bbind (blift (s1_rebuild V B0 (mkS1 (fst ij) (snd ij) (default (by_rho B0) rho) ys bb bf a b None None None 0 0 0 0 0 0))) (fun s => bmod (fun B3 => set_order (set_s1 B3 (by_s1 B3 ++ [s])) (by_order B3 ++ [true]))))) B = (B', Ok tt))
    by (destruct a, b; try exact H4; discriminate). clear H4.
  unfold bbind, bget, blift, bmod in H5. destruct (find_panels B ys) as [[i j]|e]; [|discriminate]. cbn [fst snd] in H5.
  destruct (s1_rebuild V B _) as [s|e] eqn:ES; [|discriminate]. injection H5 as <-. exists i, j, s. split; [reflexivity|]. split; [reflexivity|].
  unfold s1_rebuild, two_panels in ES. cbn [s1_p1 s1_p2] in ES. destruct (nth_error (by_panels B) i); [|discriminate]. destruct (nth_error (by_panels B) j); [|discriminate].
  destruct (agree_panels _ _); [|discriminate]. injection ES as <-. repeat split.
Qed.
Lemma s2_added V ys rho bb bf bd fd mf nf B B' : add_bladestiff2d V ys rho bb bf bd fd mf nf B = (B', Ok tt) ->
  exists i j s, find_panels B ys = Ok (i, j) /\ by_s2 B' = by_s2 B ++ [s] /\ s2_p1 s = i /\ s2_p2 s = j /\ s2_ys s = ys /\ by_panels B' = by_panels B.
Proof.
  unfold add_bladestiff2d. intro H. destruct (bind_run _ _ _ _ _ H) as [(B1 & a & H1 & H2)|(e & _ & HE)]; [|discriminate HE]. injection H1 as <- ->. clear H.
  destruct (bind_run _ _ _ _ _ H2) as [(B2 & b & H3 & H4)|(e & _ & HE)]; [|discriminate HE]. injection H3 as <- ->. clear H2.
  assert (H5 : bbind bget (fun B0 => bbind (blift (find_panels B0 ys)) (fun ij => bbind (blift (new_stiff2 V B0 (fst ij) (snd ij) (default (by_rho B0) rho) ys bb bf a b mf nf)) (fun s => bmod (fun B3 => set_order (set_s2 B3 (by_s2 B3 ++ [s])) (by_order B3 ++ [false]))))) B = (B', Ok tt))
    by (destruct a, b; try exact H4; discriminate). clear H4.
  unfold bbind, bget, blift, bmod in H5. destruct (find_panels B ys) as [[i j]|e]; [|discriminate]. cbn [fst snd] in H5.
  destruct (new_stiff2 V B _ _ _ _ _ _ _ _ _ _) as [s|e] eqn:ES; [|discriminate]. injection H5 as <-. exists i, j, s. split; [reflexivity|]. split; [reflexivity|].
  unfold new_stiff2 in ES. unfold s2_rebuild, two_panels, rbind in ES. cbn [s2_p1 s2_p2] in ES.
  repeat match type of ES with context [match ?x with _ => _ end] => destruct x eqn:?; try discriminate end; injection ES as <-; repeat split.
Qed.
