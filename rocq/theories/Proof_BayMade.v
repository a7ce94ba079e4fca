(* What holds of the stiffeners of every bay a user can arrive at. *)
From Coq Require Import Reals List Arith Bool Lia Lra.
From Verif Require Import Base_Sum Model_Types Model_Coo Model_Result Model_Num Model_DB Model_Shell Model_Multi Model_New Model_StiffKer Model_Bay Spec_Algebra Spec_Shell Spec_Bay
  Proof_Shell Proof_Hist Proof_Bay.
Import ListNotations.
Open Scope R_scope.

Definition like (s t : shell) : Prop := sh_a s = sh_a t /\ sh_b s = sh_b t /\ sh_m s = sh_m t /\ sh_n s = sh_n t.
Definition good2 (sh : shell) (s : stiff2) : Prop := plied s /\ (forall q, s2_flange s = Some q -> sh_a (pn_sh q) = sh_a sh) /\ forall b, s2_base s = Some b -> like (pn_sh b) sh.
Record good (B : bay) : Prop := { g_s1 : List.Forall made1 (by_s1 B); g_s2 : List.Forall (good2 (by_sh B)) (by_s2 B) }.
Definition keeps {A} (f : bmethod A) : Prop := forall B, good B -> good (fst (f B)) .

Lemma keeps_bind {A C} (x : bmethod A) (f : A -> bmethod C) : keeps x -> (forall a, keeps (f a)) -> keeps (bbind x f).
Proof. intros Hx Hf B HB. unfold bbind. specialize (Hx B HB). destruct (x B) as [B' [a|e]]; [apply Hf|]; exact Hx. Qed.
Lemma keeps_ret {A} (a : A) : keeps (bret a). Proof. intros B HB. exact HB. Qed.
Lemma keeps_raise {A} e : keeps (@braise A e). Proof. intros B HB. exact HB. Qed.
Lemma keeps_lift {A} (x : res A) : keeps (blift x). Proof. intros B HB. exact HB. Qed.
Lemma keeps_get : keeps bget. Proof. intros B HB. exact HB. Qed.
Lemma keeps_each {A} (f : nat -> bmethod A) : (forall i, keeps (f i)) -> forall k i, keeps (each f i k).
Proof. intros Hf. induction k as [|k IH]; intro i; cbn [each]; [apply keeps_ret|]. apply keeps_bind; [apply Hf|]. intro a. apply keeps_bind; [apply IH|]. intro l. apply keeps_ret. Qed.
Lemma keeps_skin {A} i (m : method A) : keeps (on_skin i m).
Proof. intros B [H1 H2]. unfold on_skin. destruct (nth_error _ _); [|constructor; assumption]. destruct (m p). constructor; assumption. Qed.
Lemma keeps_mod f : (forall B, good B -> good (f B)) -> keeps (bmod f). Proof. intros Hf B HB. exact (Hf B HB). Qed.
Lemma keeps_coo size M : keeps (coo_mat size M).
Proof. apply keeps_bind; [apply keeps_lift|]. intro. apply keeps_ret. Qed.
Lemma Forall_set_at {A} (P : A -> Prop) l i a : List.Forall P l -> P a -> List.Forall P (set_at i a l).
Proof. intros HF Ha. revert i. induction HF; intros [|i]; cbn; constructor; auto. Qed.
Lemma Forall_nth {A} (P : A -> Prop) l i a : List.Forall P l -> nth_error l i = Some a -> P a.
Proof. intros HF H. rewrite List.Forall_forall in HF. apply HF. eapply nth_error_In. exact H. Qed.
Lemma s1_rebuild_made V B s s' : made1 s -> s1_rebuild V B s = Ok s' -> made1 s'.
Proof.
  intros [H1 H2] H. unfold s1_rebuild, two_panels in H. destruct (nth_error _ _); [|discriminate]. destruct (nth_error _ _); [|discriminate]. destruct (agree_panels _ _); [|discriminate].
  apply (f_equal (fun x => match x with Ok y => y | Err _ => s' end)) in H. cbv beta iota zeta in H. subst s'. split; cbn; intro HH; rewrite HH; [exact (H1 HH)|exact (H2 HH)].
Qed.
Lemma s2_rebuild_good V B s s' sh : good2 sh s -> s2_rebuild V B s = Ok s' -> good2 sh s'.
Proof.
  intros [[H1 H2] [H3 H4]] H. unfold s2_rebuild, two_panels in H. destruct (nth_error _ _); [|discriminate]. destruct (nth_error _ _); [|discriminate]. destruct (agree_panels _ _); [|discriminate].
  apply (f_equal (fun x => match x with Ok y => y | Err _ => s' end)) in H. cbv beta iota zeta in H. subst s'. split; [split|split]; cbn.
  - intros b Hb. destruct (s2_base s) as [b0|]; [|discriminate]. specialize (H1 b0 eq_refl). destruct (s2_bdef s); injection Hb as <-; exact H1.
  - intros q Hq. destruct (s2_flange s) as [q0|]; [|discriminate]. injection Hq as <-. exact (H2 q0 eq_refl).
  - intros q Hq. destruct (s2_flange s) as [q0|]; [|discriminate]. injection Hq as <-. exact (H3 q0 eq_refl).
  - intros b Hb. destruct (s2_base s) as [b0|]; [|discriminate]. specialize (H4 b0 eq_refl). destruct (s2_bdef s); injection Hb as <-; exact H4.
Qed.
Section Keep.
Variable V : benv.
Notation E := (b_env V).
Lemma keeps_re1 j : keeps (re_s1 V j).
Proof.
  intros B HB. unfold re_s1, get_s1, bbind, bget, blift, put_s1, bmod. destruct (nth_error (by_s1 B) j) as [s|] eqn:Es; [|exact HB].
  destruct (s1_rebuild V B s) as [s'|] eqn:Er; [|exact HB]. destruct HB as [H1 H2]. constructor; [|exact H2]. cbn. apply Forall_set_at; [exact H1|]. eapply s1_rebuild_made; [|exact Er]. eapply Forall_nth; eassumption.
Qed.
Lemma keeps_re2 j : keeps (re_s2 V j).
Proof.
  intros B HB. unfold re_s2, get_s2, bbind, bget, blift, put_s2, bmod. destruct (nth_error (by_s2 B) j) as [s|] eqn:Es; [|exact HB].
  destruct (s2_rebuild V B s) as [s'|] eqn:Er; [|exact HB]. destruct HB as [H1 H2]. constructor; [exact H1|]. cbn. apply Forall_set_at; [exact H2|]. eapply s2_rebuild_good; [|exact Er]. eapply Forall_nth; eassumption.
Qed.
Lemma keeps_get1 j : keeps (get_s1 j). Proof. intros B HB. unfold get_s1. destruct (nth_error _ _); exact HB. Qed.
Lemma keeps_get2 j : keeps (get_s2 j). Proof. intros B HB. unfold get_s2. destruct (nth_error _ _); exact HB. Qed.
Lemma keeps_base1 {A} j (m : method A) : keeps (on_base1 j m).
Proof.
  intros B HB. unfold on_base1, get_s1, bbind, put_s1, bmod, blift. destruct (nth_error (by_s1 B) j) as [s|] eqn:Es; [|exact HB]. destruct (s1_base s) as [b|] eqn:Eb; [|exact HB].
  destruct (m b) as [b' r]. assert (HG : good (set_s1 B (set_at j (s1_with_base s (Some b')) (by_s1 B)))).
  { destruct HB as [H1 H2]. constructor; [|exact H2]. cbn. apply Forall_set_at; [exact H1|]. destruct (Forall_nth _ _ _ _ H1 Es) as [M1 M2]. split; cbn; [|exact M2]. intro HH. rewrite (M1 HH) in Eb. discriminate. }
  destruct r; exact HG.
Qed.
Lemma keeps_base2 {A} j (m : method A) : (forall p q, f_inv p q -> f_inv p (fst (m q))) -> keeps (on_base2 j m).
Proof.
  intros Hm B HB. unfold on_base2, get_s2, bbind, put_s2, bmod, blift. destruct (nth_error (by_s2 B) j) as [s|] eqn:Es; [|exact HB]. destruct (s2_base s) as [b|] eqn:Eb; [|exact HB].
  pose proof (Hm b b (f_inv_refl b)) as Hb. destruct (m b) as [b' r]. cbn in Hb. assert (HG : good (set_s2 B (set_at j (s2_with s (Some b') (s2_flange s)) (by_s2 B)))).
  { destruct HB as [H1 H2]. constructor; [exact H1|]. cbn. apply Forall_set_at; [exact H2|]. destruct (Forall_nth _ _ _ _ H2 Es) as [[M1 M2] [M3 M4]]. split; [split|split]; cbn; [|exact M2|exact M3|].
    - intros b0 Hb0. injection Hb0 as <-. exact (kept_inv _ _ Hb (M1 _ Eb)).
    - intros b0 Hb0. injection Hb0 as <-. destruct Hb as [[[]] _]. rewrite si_sh. exact (M4 _ Eb). }
  destruct r; exact HG.
Qed.
Lemma keeps_flange {A} j (m : method A) : (forall p q, f_inv p q -> f_inv p (fst (m q))) -> keeps (on_flange j m).
Proof.
  intros Hm B HB. unfold on_flange, get_s2, bbind, put_s2, bmod, blift. destruct (nth_error (by_s2 B) j) as [s|] eqn:Es; [|exact HB]. destruct (s2_flange s) as [b|] eqn:Eb; [|exact HB].
  pose proof (Hm b b (f_inv_refl b)) as Hb. destruct (m b) as [b' r]. cbn in Hb. assert (HG : good (set_s2 B (set_at j (s2_with s (s2_base s) (Some b')) (by_s2 B)))).
  { destruct HB as [H1 H2]. constructor; [exact H1|]. cbn. apply Forall_set_at; [exact H2|]. destruct (Forall_nth _ _ _ _ H2 Es) as [[M1 M2] [M3 M4]]. split; [split|split]; cbn; [exact M1| | |exact M4].
    - intros b0 Hb0. injection Hb0 as <-. exact (kept_inv _ _ Hb (M2 _ Eb)).
    - intros b0 Hb0. injection Hb0 as <-. destruct Hb as [[[]] _]. rewrite si_sh. exact (M3 _ Eb). }
  destruct r; exact HG.
Qed.
Ltac keep := repeat first [apply keeps_ret | apply keeps_raise | apply keeps_lift | apply keeps_get | apply keeps_skin | apply keeps_coo | apply keeps_re1 | apply keeps_re2
  | apply keeps_get1 | apply keeps_get2 | apply keeps_base1 | apply keeps_base2; [intros; first [apply f_inv_kC|apply f_inv_kM|apply f_inv_rebuild]; assumption]
  | apply keeps_flange; [intros; first [apply f_inv_kC|apply f_inv_kG|apply f_inv_kM|apply f_inv_rebuild|apply f_inv_size]; assumption]
  | apply keeps_each; intros ? | apply keeps_bind; [|intros ?] | apply keeps_mod; intros ? []; constructor; assumption
  | match goal with |- keeps (match ?x with _ => _ end) => destruct x end ].
Lemma keeps_panels {A} (f : nat -> bmethod A) : (forall i, keeps (f i)) -> keeps (each_panel f).
Proof. intros Hf B HB. unfold each_panel. apply keeps_each; assumption. Qed.
Lemma keeps_s1s {A} (f : nat -> bmethod A) : (forall i, keeps (f i)) -> keeps (each_s1 f).
Proof. intros Hf B HB. unfold each_s1. apply keeps_each; assumption. Qed.
Lemma keeps_s1kC N o j : keeps (s1_kC V N o o j). Proof. unfold s1_kC. keep. Qed.
Lemma keeps_s1kG c N o j : keeps (s1_kG V c N o o j). Proof. unfold s1_kG. keep. Qed.
Lemma keeps_s1kM N o j : keeps (s1_kM V N o o j). Proof. unfold s1_kM. keep. Qed.
Lemma keeps_s2kC N o j : keeps (s2_kC V N o o j). Proof. unfold s2_kC. cbv zeta. keep. Qed.
Lemma keeps_s2kG c N o j : keeps (s2_kG V c N o o j). Proof. unfold s2_kG. keep. Qed.
Lemma keeps_s2kM N o j : keeps (s2_kM V N o o j). Proof. unfold s2_kM. keep. Qed.
Lemma keeps_rebuild : keeps (bay_rebuild V).
Proof. unfold bay_rebuild. apply keeps_bind; [apply keeps_panels; intro; keep|intro]. apply keeps_bind; [apply keeps_s1s; intro; keep|intro]. keep. Qed.
Lemma keeps_size : keeps bay_size.
Proof. unfold bay_size. cbv zeta. keep. Qed.
Lemma keeps_sum f : (forall o j, keeps (f o j)) -> forall k j o acc, keeps (sum_s2 f j k o acc).
Proof. intro Hf. induction k as [|k IH]; intros j o acc; cbn [sum_s2]; [keep|]. apply keeps_bind; [apply Hf|intro]. apply keeps_bind; [keep|intro]. apply IH. Qed.
Lemma keeps_matrix Kp K1 K2 : (forall N j, keeps (K1 N j)) -> (forall N o j, keeps (K2 N o j)) -> keeps (bay_matrix V Kp K1 K2).
Proof.
  intros H1 H2. unfold bay_matrix. apply keeps_bind; [apply keeps_rebuild|intro]. apply keeps_bind; [apply keeps_size|intro]. apply keeps_bind; [apply keeps_panels; intro; keep|intro].
  apply keeps_bind; [apply keeps_s1s; apply H1|intro]. apply keeps_bind; [keep|intro]. apply keeps_bind; [keep|intro]. apply keeps_bind; [apply keeps_sum; apply H2|intro]. keep.
Qed.
Lemma keeps_aero b : keeps (bay_aero b).
Proof. unfold bay_aero. keep. Qed.
Lemma keeps_kA : keeps (bay_kA V).
Proof. unfold bay_kA. apply keeps_bind; [apply keeps_rebuild|intro]. apply keeps_bind; [apply keeps_aero|intro]. keep. Qed.
Lemma keeps_cA : keeps (bay_cA V).
Proof. unfold bay_cA. apply keeps_bind; [apply keeps_rebuild|intro]. apply keeps_bind; [apply keeps_size|intro]. apply keeps_bind; [apply keeps_aero|intro]. keep. Qed.
Lemma keeps_1d ys rho bb bf bd fd : keeps (add_bladestiff1d V ys rho bb bf bd fd).
Proof.
  unfold add_bladestiff1d. apply keeps_bind; [keep|intros bd']. apply keeps_bind; [keep|intros fd']. destruct bd' as [bd'|], fd' as [fd'|]; try apply keeps_raise.
  all: intros B [H1 H2]; unfold bbind, bget, blift, bmod; destruct (find_panels B ys) as [ij|]; [|constructor; assumption];
    match goal with |- context [s1_rebuild V B ?x] => destruct (s1_rebuild V B x) as [s|] eqn:Es end; [|constructor; assumption];
    constructor; [|exact H2]; cbn; apply List.Forall_app; split; [exact H1|]; constructor; [|constructor]; (eapply s1_rebuild_made; [|exact Es]); split; cbn; auto; discriminate.
Qed.
Lemma keeps_2d ys rho bb bf bd fd mf nf : keeps (add_bladestiff2d V ys rho bb bf bd fd mf nf).
Proof.
  unfold add_bladestiff2d. apply keeps_bind; [keep|intros bd']. apply keeps_bind; [keep|intros fd'].
  assert (HG : forall B, good B -> good (fst ((bay_do B <- bget;
    bay_do ij <- blift (find_panels B ys);
    bay_do s <- blift (new_stiff2 V B (fst ij) (snd ij) (default (by_rho B) rho) ys bb bf bd' fd' mf nf);
    bmod (fun B => set_order (set_s2 B (by_s2 B ++ [s])) (by_order B ++ [false]))) B))).
  { intros B [H1 H2]. unfold bbind, bget, blift, bmod. destruct (find_panels B ys) as [ij|]; [|constructor; assumption].
    match goal with |- context [new_stiff2 V B ?a ?b ?c ?d ?e ?f ?g ?h ?i ?j] => destruct (new_stiff2 V B a b c d e f g h i j) as [s|] eqn:Es end; [|constructor; assumption].
    constructor; [exact H1|]. cbn. apply List.Forall_app. split; [exact H2|]. constructor; [|constructor].
    unfold new_stiff2 in Es. destruct (nth_error _ _); [|discriminate]. destruct (nth_error _ _); [|discriminate]. cbv zeta in Es. eapply s2_rebuild_good; [|exact Es].
    split; [split|split]; cbn.
    - intros b Hb. destruct bd'; [|discriminate]. injection Hb as <-. right. reflexivity.
    - intros b Hb. destruct fd'; [|discriminate]. injection Hb as <-. right. reflexivity.
    - intros b Hb. destruct fd'; [|discriminate]. injection Hb as <-. reflexivity.
    - intros b Hb. destruct bd'; [|discriminate]. injection Hb as <-. repeat split. }
  destruct bd' as [bd'|], fd' as [fd'|]; try apply keeps_raise; exact HG.
Qed.
Theorem built_good B : built V B -> good B.
Proof.
  induction 1 as [B H1 H2 H3|B y1 y2 st ts t ps p mdl rho H IH|B ys rho bb bf bd fd H IH|B ys rho bb bf bd fd mf nf H IH|B j s Fx H IH Hs|B ps H IH HL|B H IH|B H IH|B H IH|B c H IH|B H IH|B H IH|B H IH].
  - constructor; [rewrite H2|rewrite H3]; constructor.
  - destruct IH. constructor; assumption.
  - apply keeps_1d; exact IH.
  - apply keeps_2d; exact IH.
  - destruct IH as [H1 H2]. constructor; [|exact H2]. cbn. apply Forall_set_at; [exact H1|]. destruct (Forall_nth _ _ _ _ H1 Hs). split; cbn; assumption.
  - destruct IH. constructor; assumption.
  - apply keeps_rebuild; exact IH.
  - apply keeps_size; exact IH.
  - unfold bay_kC. apply keeps_matrix; [intros; apply keeps_s1kC|intros; apply keeps_s2kC|exact IH].
  - unfold bay_kG. apply keeps_matrix; [intros; apply keeps_s1kG|intros; apply keeps_s2kG|exact IH].
  - unfold bay_kM. apply keeps_matrix; [intros; apply keeps_s1kM|intros; apply keeps_s2kM|exact IH].
  - apply keeps_kA; exact IH.
  - apply keeps_cA; exact IH.
Qed.
End Keep.
