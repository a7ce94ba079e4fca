(* pow2mult replaces exactly the powers of an expression. *)
From Coq Require Import Ascii String List Arith Bool Lia Sorted.
From Verif Require Import Model_Result Model_Pow Spec_Pow.
Import ListNotations.

(* ------------------------------------------------- runs of characters *)
Lemma span_run f u x r : forallb f u = true -> f x = false -> span f (u ++ x :: r) = (u, x :: r).
Proof. intros Hu Hx. induction u as [|c u IH]; cbn in *; [rewrite Hx; reflexivity|]. apply andb_prop in Hu as [Hc Hu]. rewrite Hc, (IH Hu). reflexivity. Qed.
Lemma span_all f u : forallb f u = true -> span f u = (u, []).
Proof. intro Hu. induction u as [|c u IH]; cbn in *; [reflexivity|]. apply andb_prop in Hu as [Hc Hu]. rewrite Hc, (IH Hu). reflexivity. Qed.
Lemma span_head f u t : forallb f u = true -> (forall c, hd_error t = Some c -> f c = false) -> span f (u ++ t) = (u, t).
Proof. intros Hu Ht. destruct t as [|x r]; [rewrite app_nil_r; apply span_all; exact Hu|]. apply span_run; [exact Hu|apply Ht; reflexivity]. Qed.
Lemma run_unique (f : ascii -> bool) (u : text) (x : ascii) (r v : text) (y : ascii) (s : text) : forallb f u = true -> f x = false -> forallb f v = true -> f y = false -> u ++ x :: r = v ++ y :: s -> u = v /\ x :: r = y :: s.
Proof. intros Hu Hx Hv Hy HE. pose proof (span_run f u x r Hu Hx) as H1. rewrite HE, (span_run f v y s Hv Hy) in H1. injection H1 as -> -> ->. split; reflexivity. Qed.
Lemma starts_spec p s : starts p s = true <-> exists r, s = p ++ r.
Proof.
  revert s. induction p as [|c p IH]; intro s; [split; [intros _; exists s; reflexivity|reflexivity]|]. destruct s as [|d s]; cbn [starts]; [split; [discriminate|intros [r HE]; discriminate HE]|].
  destruct (ascii_dec c d) as [<-|N].
  - rewrite IH. split; intros [r HE]; exists r; [rewrite HE; reflexivity|injection HE as ->; reflexivity].
  - split; [discriminate|]. intros [r HE]. injection HE as HE _. congruence.
Qed.
Lemma digit_word c : is_digit c = true -> is_word c = true.
Proof. unfold is_word. intros ->. reflexivity. Qed.
Lemma digits_words d : forallb is_digit d = true -> forallb is_word d = true.
Proof. rewrite !forallb_forall. intros H x Hx. apply digit_word, H, Hx. Qed.
Lemma digit_not_space c : is_digit c = true -> is_space c = false.
Proof.
  unfold is_digit, is_space, between. intro H. apply andb_prop in H as [H1 H2]. apply Nat.leb_le in H1, H2.
  apply orb_false_intro; apply andb_false_iff; right; apply Nat.leb_gt; lia.
Qed.
Lemma digit_not_p c : is_digit c = true -> c <> "p"%char.
Proof. intros H ->. discriminate H. Qed.
Lemma forallb_suffix {A} (f : A -> bool) a b : forallb f (a ++ b) = true -> forallb f b = true.
Proof. rewrite forallb_app. intro H. apply andb_prop in H. tauto. Qed.

(* ------------------------------------------------- blocks without a match *)
(* Q at every position of b, followed by t *)
Definition silent (Q : text -> Prop) (b t : text) : Prop := forall a c, b = a ++ c -> c <> [] -> Q (c ++ t).
Lemma silent_nil Q t : silent Q [] t.
Proof. intros a c H N. symmetry in H. apply app_eq_nil in H. destruct H. contradiction. Qed.
Lemma silent_cons (Q : text -> Prop) x b t : Q (x :: b ++ t) -> silent Q b t -> silent Q (x :: b) t.
Proof. intros H1 H2 a c HE N. destruct a as [|y a]; cbn in HE; [subst c; exact H1|]. injection HE as _ HE. exact (H2 a c HE N). Qed.
Lemma silent_app Q b1 b2 t : silent Q b1 (b2 ++ t) -> silent Q b2 t -> silent Q (b1 ++ b2) t.
Proof.
  intros H1 H2. induction b1 as [|x b1 IH]; [exact H2|]. cbn. apply silent_cons.
  - rewrite <- app_assoc. exact (H1 [] (x :: b1) eq_refl ltac:(discriminate)).
  - apply IH. intros a c HE N. apply (H1 (x :: a) c); [rewrite HE; reflexivity|exact N].
Qed.
Lemma silent_weaken (Q Q' : text -> Prop) b t : (forall s, Q s -> Q' s) -> silent Q b t -> silent Q' b t.
Proof. intros H H1 a c HE N. apply H, (H1 a c HE N). Qed.
Lemma replace_over old new b t : silent (fun s => starts old s = false) b t -> replace old new 0 (b ++ t) = b ++ replace old new 0 t.
Proof.
  induction b as [|x b IH]; intro H; [reflexivity|]. cbn [app]. pose proof (H [] (x :: b) eq_refl ltac:(discriminate)) as H0. cbn [app] in H0.
  cbn [replace]. rewrite H0. f_equal. apply IH. intros a c HE N. apply (H (x :: a) c); [rewrite HE; reflexivity|exact N].
Qed.
Lemma replace_skip old new b t : replace old new (length b) (b ++ t) = replace old new 0 t.
Proof. induction b as [|x b IH]; [reflexivity|exact IH]. Qed.
Lemma replace_here old new t : old <> [] -> replace old new 0 (old ++ t) = new ++ replace old new 0 t.
Proof.
  intro N. destruct old as [|x old]; [contradiction|]. assert (H : starts (x :: old) ((x :: old) ++ t) = true) by (apply starts_spec; exists t; reflexivity).
  cbn [app] in *. cbn [replace]. rewrite H. f_equal. apply (replace_skip (x :: old) new old t).
Qed.
Lemma findall_over {T} (at_ : text -> option (T * nat)) b t : silent (fun s => at_ s = None) b t -> findall at_ 0 (b ++ t) = findall at_ 0 t.
Proof.
  induction b as [|x b IH]; intro H; [reflexivity|]. cbn [app]. pose proof (H [] (x :: b) eq_refl ltac:(discriminate)) as H0. cbn [app] in H0.
  cbn [findall]. rewrite H0. apply IH. intros a c HE N. apply (H (x :: a) c); [rewrite HE; reflexivity|exact N].
Qed.
Lemma findall_skip {T} (at_ : text -> option (T * nat)) b t : findall at_ (length b) (b ++ t) = findall at_ 0 t.
Proof. induction b as [|x b IH]; [reflexivity|exact IH]. Qed.
Lemma findall_here {T} (at_ : text -> option (T * nat)) b t q : b <> [] -> at_ (b ++ t) = Some (q, length b) -> findall at_ 0 (b ++ t) = q :: findall at_ 0 t.
Proof. intros N H. destruct b as [|x b]; [contradiction|]. cbn [app] in *. cbn [findall]. rewrite H. f_equal. apply findall_skip. Qed.

(* ------------------------------------------------- where the two patterns do not match *)
Definition no_pow (s : text) : Prop := pow_at s = None.
Definition no_call (s : text) : Prop := starts (txt "pow(") s = false.
Definition still (s : text) : Prop := no_pow s /\ no_call s.
Definition head_not (c : ascii) (s : text) : Prop := hd_error s <> Some c.
Lemma no_pow_run u x r : forallb is_word u = true -> is_word x = false -> x <> "*"%char \/ head_not "*" r -> no_pow (u ++ x :: r).
Proof.
  intros Hu Hx HN. unfold no_pow, pow_at. rewrite (span_run _ _ _ _ Hu Hx). destruct u as [|c u]; [reflexivity|].
  destruct (ascii_dec x "*") as [->|N].
  - destruct r as [|y r]; [reflexivity|]. destruct HN as [HN|HN]; [congruence|]. destruct (ascii_dec y "*") as [->|N]; [exfalso; apply HN; reflexivity|].
    destruct y as [[] [] [] [] [] [] [] []]; try reflexivity; contradiction.
  - destruct x as [[] [] [] [] [] [] [] []]; try reflexivity; contradiction.
Qed.
Lemma no_pow_char x r : is_word x = false -> no_pow (x :: r).
Proof. intro Hx. unfold no_pow, pow_at. cbn [span]. rewrite Hx. reflexivity. Qed.
Lemma no_call_run u x r : forallb is_word u = true -> is_word x = false -> x <> "("%char -> no_call (u ++ x :: r).
Proof.
  intros Hu Hx HN. unfold no_call. destruct (starts (txt "pow(") (u ++ x :: r)) eqn:ES; [|reflexivity]. exfalso. apply starts_spec in ES. destruct ES as [s HE].
  change (txt "pow(" ++ s) with (txt "pow" ++ "("%char :: s) in HE. destruct (run_unique is_word _ _ _ (txt "pow") "("%char s Hu Hx eq_refl eq_refl HE) as [_ H]. congruence.
Qed.
Lemma no_call_char x r : x <> "p"%char -> no_call (x :: r).
Proof. intro N. unfold no_call. change (txt "pow(") with ("p"%char :: txt "ow("). cbn [starts]. destruct (ascii_dec "p" x); [congruence|reflexivity]. Qed.
Lemma not_word_p x : is_word x = false -> x <> "p"%char.
Proof. intros H ->. discriminate H. Qed.
Lemma still_char x r : is_word x = false -> still (x :: r).
Proof. intro H. split; [apply no_pow_char; exact H|apply no_call_char, not_word_p; exact H]. Qed.
Lemma silent_run u x r : forallb is_word u = true -> is_word x = false -> x <> "*"%char \/ head_not "*" r -> x <> "("%char -> silent still u (x :: r).
Proof.
  intros Hu Hx H1 H2 a c HE N. subst u. pose proof (forallb_suffix _ _ _ Hu) as Hc. split; [apply no_pow_run; assumption|apply no_call_run; assumption].
Qed.
Lemma silent_outside u r : forallb (fun x => negb (is_word x)) u = true -> silent still u r.
Proof.
  intros Hu a c HE N. subst u. apply forallb_suffix in Hu. destruct c as [|x c]; [contradiction|]. cbn in Hu. apply andb_prop in Hu as [Hx _]. apply negb_true_iff in Hx. apply still_char. exact Hx.
Qed.
Lemma word_head w t : word w -> exists c r, w ++ t = c :: r /\ is_word c = true.
Proof. intros [N H]. destruct w as [|c w]; [contradiction|]. exists c, (w ++ t). split; [reflexivity|]. cbn in H. apply andb_prop in H. tauto. Qed.
Lemma word_not_star c : is_word c = true -> c <> "*"%char.
Proof. intros H ->. discriminate H. Qed.
Lemma silent_join w t : word w -> forall n, silent still (join w n) (txt ")" ++ t).
Proof.
  intros Hw n. pose proof (proj2 Hw) as Hf. induction n as [|[|n] IH]; [apply silent_nil|apply silent_run; [exact Hf|reflexivity|left; discriminate|discriminate]|].
  change (join w (S (S n))) with (w ++ txt "*" ++ join w (S n)). apply silent_app; [|apply silent_app; [apply silent_outside; reflexivity|exact IH]].
  change ((txt "*" ++ join w (S n)) ++ txt ")" ++ t) with ("*"%char :: join w (S n) ++ txt ")" ++ t). apply silent_run; [exact Hf|reflexivity| |discriminate]. right. unfold head_not.
  assert (HJ : exists r, join w (S n) = w ++ r) by (destruct n; [exists []; cbn; rewrite app_nil_r; reflexivity|eexists; reflexivity]). destruct HJ as [r ->].
  rewrite <- app_assoc. destruct (word_head w (r ++ txt ")" ++ t) Hw) as (c & r' & -> & Hc). cbn. intro HE. injection HE as ->. discriminate Hc.
Qed.
Lemma silent_product w n t : word w -> silent still (product w n) t.
Proof.
  intro Hw. unfold product. apply silent_app; [apply silent_outside; reflexivity|]. apply silent_app; [apply silent_join; exact Hw|apply silent_outside; reflexivity].
Qed.

(* ------------------------------------------------- the text after some replacements *)
Definition pow_dec (p q : text * text) : {p = q} + {p <> q}.
Proof. decide equality; apply (list_eq_dec ascii_dec). Defined.
Definition call_dec (p q : text * text * text) : {p = q} + {p <> q}.
Proof. decide equality; [apply (list_eq_dec ascii_dec)|apply pow_dec]. Defined.
Definition part (P : list (text * text)) (Q : list (text * text * text)) (p : piece) : text :=
  match p with
  | Char c => [c]
  | Power w d => if in_dec pow_dec (w, d) P then product w (dec d) else power (w, d)
  | Call w sp d => if in_dec call_dec (w, sp, d) Q then product w (dec d) else call (w, sp, d)
  end.
Definition state P Q (l : list piece) : text := concat (map (part P Q) l).
Lemma state_shown l : state [] [] l = shown l.
Proof. unfold state, shown. rewrite (map_ext (part [] []) shown1); [reflexivity|]. intros [c|w d|w sp d]; reflexivity. Qed.

(* a first character that belongs to no name is a character of the expression *)
Lemma head_char P Q prev l c : expression prev l -> hd_error (state P Q l) = Some c -> is_word c = false -> c <> "("%char -> exists r, l = Char c :: r.
Proof.
  destruct l as [|[x|w d|w sp d] r]; intros HE HH Hc Hp; [discriminate HH| | |].
  - cbn in HH. injection HH as ->. exists r. reflexivity.
  - exfalso. unfold state in HH. cbn [map concat part] in HH. destruct (in_dec pow_dec (w, d) P); [cbn in HH; injection HH as <-; congruence|].
    destruct HE as (Hw & _). unfold power in HH. cbn [fst snd] in HH. rewrite <- app_assoc in HH. destruct (word_head w ((txt "**" ++ d) ++ concat (map (part P Q) r)) Hw) as (y & r' & HY & Hy). rewrite HY in HH. injection HH as ->. congruence.
  - exfalso. unfold state in HH. cbn [map concat part] in HH. destruct (in_dec call_dec (w, sp, d) Q); cbn in HH; injection HH as <-; [congruence|discriminate Hc].
Qed.
Lemma shown_hd prev l c : expression prev l -> (exists r, l = Char c :: r) -> hd_error (shown l) = Some c.
Proof. intros _ [r ->]. reflexivity. Qed.
Lemma head_class P Q prev l : expression prev l -> (forall c, hd_error (shown l) = Some c -> is_word c = false /\ c <> "."%char) -> forall c, hd_error (state P Q l) = Some c -> is_word c = false.
Proof.
  destruct l as [|[x|w d|w sp d] r]; intros HE HS c HH; [discriminate HH| | |].
  - apply (HS c). exact HH.
  - exfalso. destruct HE as (Hw & _). unfold shown in HS. cbn [map concat shown1] in HS. rewrite <- app_assoc in HS. destruct (word_head w ((txt "**" ++ d) ++ concat (map shown1 r)) Hw) as (y & r' & HY & Hy).
    rewrite HY in HS. destruct (HS y eq_refl). congruence.
  - exfalso. destruct (HS "p"%char eq_refl) as [HS' _]. discriminate HS'.
Qed.
(* a name that ends in the expression after prev is not followed by a power *)
Lemma no_pow_after P Q l : forall prev u, expression prev l -> after_name prev = true -> forallb is_word u = true -> no_pow (u ++ state P Q l).
Proof.
  induction l as [|p r IH]; intros prev u HE HP Hu.
  - unfold state. cbn. rewrite app_nil_r. unfold no_pow, pow_at. rewrite (span_all _ _ Hu). destruct u; reflexivity.
  - destruct p as [c|w d|w sp d]; [|destruct HE as (_ & _ & _ & HE & _); congruence|destruct HE as (_ & _ & _ & _ & _ & HE & _); congruence].
    destruct HE as (H1 & H2 & H3). change (state P Q (Char c :: r)) with (c :: state P Q r). destruct (is_word c) eqn:Ec.
    + replace (u ++ c :: state P Q r) with ((u ++ [c]) ++ state P Q r) by (rewrite <- app_assoc; reflexivity). apply (IH (Some c)); [exact H3|exact Ec|]. rewrite forallb_app, Hu. cbn. rewrite Ec. reflexivity.
    + apply no_pow_run; [exact Hu|exact Ec|]. destruct (ascii_dec c "*") as [->|N]; [|left; exact N]. right. intro HH. apply H1. split; [exact HP|].
      destruct (head_char P Q _ r "*" H3 HH eq_refl ltac:(discriminate)) as [r' ->]. reflexivity.
Qed.
Lemma no_pow_here P Q c l : expression (Some c) l -> no_pow (c :: state P Q l).
Proof.
  intro H. destruct (is_word c) eqn:Ec; [|apply no_pow_char; exact Ec]. change (c :: state P Q l) with ([c] ++ state P Q l). apply (no_pow_after P Q l (Some c)); [exact H|exact Ec|]. cbn. rewrite Ec. reflexivity.
Qed.
(* a call of pow in the text is one of the expression *)
Lemma no_call_here P Q c l : expression (Some c) l -> starts (txt "pow(") (c :: shown l) = false -> no_call (c :: state P Q l).
Proof.
  intros HE HN. unfold no_call. destruct (starts (txt "pow(") (c :: state P Q l)) eqn:ES; [|reflexivity]. rewrite <- HN. clear HN. symmetry.
  apply starts_spec in ES. destruct ES as [s HS]. injection HS as -> HS.
  assert (N : forall x y l, expression (Some x) l -> is_word x = true -> hd_error (state P Q l) = Some y -> exists r, l = Char y :: r).
  { intros x y [|[z|w d|w sp d] r] H1 H2 H3; [discriminate H3| | |].
    - cbn in H3. injection H3 as ->. exists r. reflexivity.
    - destruct H1 as (_ & _ & _ & H1 & _). cbn in H1. congruence.
    - destruct H1 as (_ & _ & _ & _ & _ & H1 & _). cbn in H1. congruence. }
  destruct (N "p"%char "o"%char l HE eq_refl ltac:(rewrite HS; reflexivity)) as [l1 ->]. destruct HE as (_ & _ & HE). change (state P Q (Char "o" :: l1)) with ("o"%char :: state P Q l1) in HS. injection HS as HS.
  destruct (N "o"%char "w"%char l1 HE eq_refl ltac:(rewrite HS; reflexivity)) as [l2 ->]. destruct HE as (_ & _ & HE). change (state P Q (Char "w" :: l2)) with ("w"%char :: state P Q l2) in HS. injection HS as HS.
  destruct (N "w"%char "("%char l2 HE eq_refl ltac:(rewrite HS; reflexivity)) as [l3 ->]. reflexivity.
Qed.

(* ------------------------------------------------- powers *)
Lemma pow_at_power w d t : word w -> digits d -> (forall c, hd_error t = Some c -> is_word c = false) -> pow_at (power (w, d) ++ t) = Some ((w, d), length (power (w, d))).
Proof.
  intros [Nw Hw] [Nd Hd] Ht. unfold pow_at, power. cbn [fst snd]. rewrite <- !app_assoc. change (txt "**" ++ d ++ t) with ("*"%char :: "*"%char :: d ++ t). rewrite (span_run is_word w "*"%char _ Hw eq_refl).
  destruct w as [|c w]; [contradiction|].
  assert (HS : span is_digit (d ++ t) = (d, t)).
  { apply span_head; [exact Hd|]. intros x Hx. specialize (Ht x Hx). destruct (is_digit x) eqn:ED; [|reflexivity]. rewrite (digit_word x ED) in Ht. discriminate Ht. }
  cbn [app txt list_ascii_of_string]. rewrite HS. destruct d as [|x d]; [contradiction|]. apply (f_equal Some), (f_equal2 pair); [reflexivity|]. cbn. rewrite ?app_length. cbn. lia.
Qed.
Lemma starts_power w1 d1 s : word w1 -> digits d1 -> starts (power (w1, d1)) s = true -> exists d n, pow_at s = Some ((w1, d), n) /\ exists e, d = d1 ++ e.
Proof.
  intros [Nw Hw] [Nd Hd] H. apply starts_spec in H. destruct H as [r ->]. unfold pow_at, power. cbn [fst snd]. rewrite <- !app_assoc. change (txt "**" ++ d1 ++ r) with ("*"%char :: "*"%char :: d1 ++ r). rewrite (span_run is_word w1 "*"%char _ Hw eq_refl).
  destruct w1 as [|c w]; [contradiction|]. cbn [app txt list_ascii_of_string].
  assert (HS : exists e t, span is_digit (d1 ++ r) = (d1 ++ e, t)).
  { clear Nd. induction d1 as [|x d1 IH]; cbn [app span]; [destruct (span is_digit r) as [e t]; exists e, t; reflexivity|]. cbn in Hd. apply andb_prop in Hd as [Hx Hd]. rewrite Hx. destruct (IH Hd) as (e & t & ->). exists e, t. reflexivity. }
  destruct HS as (e & t & ->). destruct d1 as [|x d1]; [contradiction|]. cbn [app]. do 2 eexists. split; [reflexivity|]. exists e. reflexivity.
Qed.
Lemma quiet_starts w1 d1 s : word w1 -> digits d1 -> no_pow s -> starts (power (w1, d1)) s = false.
Proof. intros Hw Hd HN. destruct (starts _ s) eqn:ES; [|reflexivity]. destruct (starts_power _ _ _ Hw Hd ES) as (d & n & H & _). congruence. Qed.
Lemma ends_word d : digits d -> after_name (ends d) = true.
Proof.
  intros [N H]. unfold ends. destruct (rev d) as [|c r] eqn:ER; [apply (f_equal (@rev ascii)) in ER; rewrite rev_involutive in ER; contradiction|]. cbn. apply digit_word. rewrite forallb_forall in H. apply H. apply in_rev. rewrite ER. left. reflexivity.
Qed.
Lemma silent_digits P Q d l : digits d -> expression (ends d) l -> silent no_pow d (state P Q l).
Proof.
  intros Hd HE a c HD N. apply (no_pow_after P Q l (ends d)); [exact HE|apply ends_word; exact Hd|]. apply digits_words. destruct Hd as [_ Hd]. rewrite HD in Hd. exact (forallb_suffix _ _ _ Hd).
Qed.
(* inside the call pow(w, d) *)
Lemma silent_call_tail w sp d t : word w -> forallb is_space sp = true -> digits d -> silent still (txt "(" ++ w ++ txt "," ++ sp ++ d ++ txt ")") t.
Proof.
  intros [_ Hw] Hsp [_ Hd]. apply silent_app; [apply silent_outside; reflexivity|]. apply silent_app; [apply silent_run; [exact Hw|reflexivity|left; discriminate|discriminate]|].
  apply silent_app; [apply silent_outside; reflexivity|]. apply silent_app; [apply silent_outside|apply silent_app; [apply silent_run; [apply digits_words; exact Hd|reflexivity|left; discriminate|discriminate]|apply silent_outside; reflexivity]].
  rewrite forallb_forall in *. intros x Hx. specialize (Hsp x Hx). destruct x as [[] [] [] [] [] [] [] []]; try reflexivity; discriminate Hsp.
Qed.
Lemma call_split w sp d : call (w, sp, d) = txt "pow" ++ (txt "(" ++ w ++ txt "," ++ sp ++ d ++ txt ")").
Proof. reflexivity. Qed.
Lemma silent_call w sp d t : word w -> forallb is_space sp = true -> digits d -> silent no_pow (call (w, sp, d)) t.
Proof.
  intros Hw Hsp Hd. rewrite call_split. apply silent_app; [|eapply silent_weaken; [|apply silent_call_tail; assumption]; intros s [H _]; exact H].
  intros a c HE N. cbn [app txt list_ascii_of_string]. apply no_pow_run; [|reflexivity|left; discriminate]. apply (forallb_suffix _ a). rewrite <- HE. reflexivity.
Qed.
Lemma power_not_nil w d : word w -> power (w, d) <> [].
Proof. intros [N _]. destruct w; [contradiction|discriminate]. Qed.
Lemma silent_star P Q l : silent no_pow (txt "**") (state P Q l).
Proof. eapply silent_weaken; [|apply silent_outside; reflexivity]. intros s [H _]. exact H. Qed.
Lemma silent_stars b t : silent no_pow (txt "**") (b ++ t).
Proof. eapply silent_weaken; [|apply silent_outside; reflexivity]. intros s [H _]. exact H. Qed.

Fixpoint powers (l : list piece) : list (text * text) := match l with [] => [] | Power w d :: r => (w, d) :: powers r | _ :: r => powers r end.
Fixpoint calls (l : list piece) : list (text * text * text) := match l with [] => [] | Call w sp d :: r => (w, sp, d) :: calls r | _ :: r => calls r end.
Lemma find_powers l : forall prev, expression prev l -> findall pow_at 0 (shown l) = powers l.
Proof.
  induction l as [|p r IH]; intros prev HE; [reflexivity|]. rewrite <- state_shown in *. change (state [] [] (p :: r)) with (part [] [] p ++ state [] [] r).
  destruct p as [c|w d|w sp d].
  - destruct HE as (_ & _ & HE). rewrite findall_over; [rewrite state_shown; exact (IH _ HE)|]. apply silent_cons; [apply no_pow_here; exact HE|apply silent_nil].
  - destruct HE as (Hw & Hd & _ & _ & _ & HH & HE). cbn [part in_dec]. rewrite (findall_here pow_at (power (w, d)) _ (w, d)).
    + cbn [powers]. f_equal. rewrite state_shown. exact (IH _ HE).
    + apply power_not_nil. exact Hw.
    + apply pow_at_power; [exact Hw|exact Hd|]. exact (head_class [] [] _ r HE HH).
  - destruct HE as (Hw & _ & Hsp & Hd & _ & _ & HE). cbn [part in_dec]. rewrite findall_over; [rewrite state_shown; exact (IH _ HE)|apply silent_call; assumption].
Qed.
Lemma replace_power w1 d1 P Q l : word w1 -> digits d1 -> (forall w d, In (Power w d) l -> In (w, d) P \/ (w, d) = (w1, d1) \/ without (power (w1, d1)) (power (w, d))) ->
  forall prev, expression prev l -> replace (power (w1, d1)) (product w1 (dec d1)) 0 (state P Q l) = state ((w1, d1) :: P) Q l.
Proof.
  intros Hw1 Hd1. induction l as [|p r IH]; intros HL prev HE; [reflexivity|].
  assert (IH' : forall prev, expression prev r -> replace (power (w1, d1)) (product w1 (dec d1)) 0 (state P Q r) = state ((w1, d1) :: P) Q r) by (apply IH; intros; apply HL; right; assumption).
  change (state P Q (p :: r)) with (part P Q p ++ state P Q r). change (state ((w1, d1) :: P) Q (p :: r)) with (part ((w1, d1) :: P) Q p ++ state ((w1, d1) :: P) Q r).
  assert (QS : forall b t, silent no_pow b t -> silent (fun s => starts (power (w1, d1)) s = false) b t) by (intros b t; apply silent_weaken; intros s; apply quiet_starts; assumption).
  destruct p as [c|w d|w sp d].
  - destruct HE as (_ & _ & HE). rewrite replace_over; [rewrite (IH' _ HE); reflexivity|]. apply QS. apply silent_cons; [apply no_pow_here; exact HE|apply silent_nil].
  - destruct HE as (Hw & Hd & _ & _ & _ & HH & HE). cbn [part]. destruct (in_dec pow_dec (w, d) ((w1, d1) :: P)) as [HI|HI], (in_dec pow_dec (w, d) P) as [HJ|HJ].
    + rewrite replace_over; [rewrite (IH' _ HE); reflexivity|]. apply QS. eapply silent_weaken; [|apply silent_product; exact Hw]. intros s [H _]. exact H.
    + destruct HI as [HI|HI]; [|contradiction]. injection HI as -> ->. rewrite replace_here by (apply power_not_nil; exact Hw). rewrite (IH' _ HE). reflexivity.
    + exfalso. apply HI. right. exact HJ.
    + assert (HN : (w1, d1) <> (w, d)) by (intro HN; apply HI; left; exact HN).
      assert (Hout : without (power (w1, d1)) (power (w, d))) by (destruct (HL w d (or_introl eq_refl)) as [H|[H|H]]; [contradiction|congruence|assumption]).
      rewrite replace_over; [rewrite (IH' _ HE); reflexivity|]. unfold power at 2. cbn [fst snd]. apply silent_app.
      * intros a c Hac N. destruct (starts _ (c ++ _)) eqn:ES; [|reflexivity]. exfalso. destruct (starts_power _ _ _ Hw1 Hd1 ES) as (d2 & k & H1 & e & H2).
        assert (Hc : word c) by (split; [exact N|]; apply (forallb_suffix _ a); rewrite <- Hac; apply Hw).
        pose proof (pow_at_power c d (state P Q r) Hc Hd (head_class P Q _ r HE HH)) as H3. unfold power in H3 at 1. cbn [fst snd] in H3. rewrite <- !app_assoc in H3. rewrite <- !app_assoc in H1. rewrite H3 in H1. injection H1 as -> -> _.
        apply (Hout a e). unfold power. cbn [fst snd]. rewrite Hac, H2, <- !app_assoc. reflexivity.
      * apply QS. apply silent_app; [apply silent_stars|]. apply silent_digits; assumption.
  - destruct HE as (Hw & _ & Hsp & Hd & _ & _ & HE). rewrite replace_over; [rewrite (IH' _ HE); reflexivity|]. apply QS. cbn [part]. destruct (in_dec call_dec (w, sp, d) Q).
    + eapply silent_weaken; [|apply silent_product; exact Hw]. intros s [H _]. exact H.
    + apply silent_call; assumption.
Qed.

(* ------------------------------------------------- longest first *)
Definition shorter (p q : text * text) : Prop := length (power p) <= length (power q).
Lemma power_inj w d w1 d1 : word w -> word w1 -> power (w, d) = power (w1, d1) -> (w, d) = (w1, d1).
Proof.
  intros [_ Hw] [_ Hw1] H. unfold power in H. cbn [fst snd] in H. change (txt "**" ++ d) with ("*"%char :: "*"%char :: d) in H. change (txt "**" ++ d1) with ("*"%char :: "*"%char :: d1) in H.
  destruct (run_unique is_word w "*"%char _ w1 "*"%char _ Hw eq_refl Hw1 eq_refl H) as [-> H2]. injection H2 as ->. reflexivity.
Qed.
Lemma shorter_without w d w1 d1 : word w -> word w1 -> shorter (w, d) (w1, d1) -> (w, d) = (w1, d1) \/ without (power (w1, d1)) (power (w, d)).
Proof.
  intros Hw Hw1 HS. destruct (pow_dec (w, d) (w1, d1)) as [E|N]; [left; exact E|right]. intros a b HE. unfold shorter in HS. pose proof HS as HL. rewrite HE, !app_length in HL.
  destruct a as [|x a]; [|cbn in HL; lia]. destruct b as [|x b]; [|cbn in HL; lia]. cbn in HE. rewrite app_nil_r in HE. apply N, power_inj; assumption.
Qed.
Lemma insert_in p l x : In x (insert p l) <-> x = p \/ In x l.
Proof.
  induction l as [|q l IH]; cbn [insert]; [cbn; intuition congruence|]. destruct (length (power p) <=? length (power q)); cbn [In]; [intuition congruence|]. rewrite IH. intuition.
Qed.
Lemma insert_sorted p l : StronglySorted shorter l -> StronglySorted shorter (insert p l).
Proof.
  induction 1 as [|q l Hs IH HF]; cbn [insert]; [constructor; constructor|]. destruct (length (power p) <=? length (power q)) eqn:EL.
  - apply Nat.leb_le in EL. constructor; [constructor; assumption|]. constructor; [exact EL|]. rewrite Forall_forall in *. intros x Hx. specialize (HF x Hx). unfold shorter in *. lia.
  - apply Nat.leb_gt in EL. constructor; [exact IH|]. rewrite Forall_forall in *. intros x Hx. apply insert_in in Hx. destruct Hx as [->|Hx]; [unfold shorter; lia|apply HF; exact Hx].
Qed.
Lemma sorted_snoc {A} (R : A -> A -> Prop) l x : StronglySorted R l -> Forall (fun y => R y x) l -> StronglySorted R (l ++ [x]).
Proof.
  induction 1 as [|y l Hs IH HF]; intro H; cbn; [constructor; constructor|]. inversion H; subst. constructor; [apply IH; assumption|]. apply Forall_app. split; [exact HF|constructor; [assumption|constructor]].
Qed.
Lemma sorted_rev {A} (R : A -> A -> Prop) l : StronglySorted R l -> StronglySorted (fun x y => R y x) (rev l).
Proof. induction 1 as [|y l Hs IH HF]; cbn; [constructor|]. apply sorted_snoc; [exact IH|]. rewrite Forall_forall in *. intros x Hx. apply HF, in_rev, Hx. Qed.
Lemma longest_in l x : In x (longest_first l) <-> In x l.
Proof. unfold longest_first. rewrite <- in_rev. induction l as [|p l IH]; cbn [fold_right]; [reflexivity|]. rewrite insert_in, IH. cbn. intuition congruence. Qed.
Lemma longest_sorted l : StronglySorted (fun p q => shorter q p) (longest_first l).
Proof. unfold longest_first. apply sorted_rev. induction l as [|p l IH]; cbn [fold_right]; [constructor|]. apply insert_sorted. exact IH. Qed.
Definition new_power (p : text * text) : text * text := (power p, product (fst p) (dec (snd p))).
Lemma replace_powers Q l prev : expression prev l -> forall L P, StronglySorted (fun p q => shorter q p) L ->
  (forall w d, In (w, d) L -> word w /\ digits d) -> (forall w d, In (Power w d) l -> In (w, d) P \/ In (w, d) L) ->
  replace_all (map new_power L) (state P Q l) = state (rev L ++ P) Q l.
Proof.
  intros HE L. induction L as [|[w1 d1] L IH]; intros P HS HG HC; [reflexivity|]. inversion HS as [|x y HS' HF]; subst. destruct (HG w1 d1 (or_introl eq_refl)) as [Hw Hd].
  cbn [map replace_all fold_left]. cbn [new_power fst snd]. rewrite (replace_power w1 d1 P Q l Hw Hd) with (prev := prev); [|intros w d Hp|exact HE].
  - cbn [rev]. rewrite <- app_assoc. cbn [app]. apply IH; [exact HS'|intros w d Hp; apply HG; right; exact Hp|]. intros w d Hp. destruct (HC w d Hp) as [H|[H|H]]; [left; right; exact H|left; left; exact H|right; exact H].
  - destruct (HC w d Hp) as [H|[H|H]]; [left; exact H|right; left; congruence|right]. rewrite Forall_forall in HF. specialize (HF (w, d) H). destruct (HG w d (or_intror H)) as [Hw' Hd']. exact (shorter_without _ _ _ _ Hw' Hw HF).
Qed.

(* ------------------------------------------------- calls of pow *)
Lemma digits_head d t : digits d -> exists c r, d ++ t = c :: r /\ is_digit c = true.
Proof. intros [N H]. destruct d as [|c d]; [contradiction|]. exists c, (d ++ t). split; [reflexivity|]. cbn in H. apply andb_prop in H. tauto. Qed.
Lemma span_spaces sp d t : forallb is_space sp = true -> digits d -> span is_space (sp ++ d ++ t) = (sp, d ++ t).
Proof. intros Hs Hd. apply span_head; [exact Hs|]. destruct (digits_head d t Hd) as (c & r & -> & Hc). intros x Hx. injection Hx as <-. apply digit_not_space. exact Hc. Qed.
Lemma call_at_call w sp d t : word w -> forallb is_space sp = true -> digits d -> call_at (call (w, sp, d) ++ t) = Some ((w, sp, d), length (call (w, sp, d))).
Proof.
  intros [Nw Hw] Hsp Hd. unfold call_at, call. rewrite <- !app_assoc.
  assert (HS : starts (txt "pow(") (txt "pow(" ++ w ++ txt "," ++ sp ++ d ++ txt ")" ++ t) = true) by (apply starts_spec; eexists; reflexivity). rewrite HS.
  change (skipn 4 (txt "pow(" ++ w ++ txt "," ++ sp ++ d ++ txt ")" ++ t)) with (w ++ ","%char :: sp ++ d ++ txt ")" ++ t). rewrite (span_run is_word w ","%char _ Hw eq_refl).
  destruct w as [|c w]; [contradiction|]. rewrite (span_spaces sp d _ Hsp Hd). change (d ++ txt ")" ++ t) with (d ++ ")"%char :: t). rewrite (span_run is_word d ")"%char t (digits_words d (proj2 Hd)) eq_refl).
  destruct d as [|x d]; [destruct Hd; contradiction|]. apply (f_equal Some), (f_equal2 pair); [reflexivity|]. cbn. rewrite ?app_length. cbn. rewrite ?app_length. cbn. rewrite ?app_length. cbn. lia.
Qed.
Lemma call_not_nil q : call q <> [].
Proof. destruct q as [[w sp] d]. discriminate. Qed.
Lemma no_call_at s : no_call s -> call_at s = None.
Proof. unfold no_call, call_at. intros ->. reflexivity. Qed.
Lemma silent_power w d t : word w -> digits d -> silent no_call (power (w, d)) t.
Proof.
  intros [_ Hw] [_ Hd]. unfold power. cbn [fst snd]. apply silent_app; [|apply silent_app].
  - intros a c HE N. cbn [app txt list_ascii_of_string]. apply no_call_run; [|reflexivity|discriminate]. apply (forallb_suffix _ a). rewrite <- HE. exact Hw.
  - eapply silent_weaken; [|apply silent_outside; reflexivity]. intros s [_ H]. exact H.
  - intros a c HE N. destruct c as [|x c]; [contradiction|]. apply no_call_char, digit_not_p. rewrite HE in Hd. apply forallb_suffix in Hd. cbn in Hd. apply andb_prop in Hd. tauto.
Qed.
Lemma find_calls l : forall prev, expression prev l -> findall call_at 0 (shown l) = calls l.
Proof.
  induction l as [|p r IH]; intros prev HE; [reflexivity|]. rewrite <- state_shown in *. change (state [] [] (p :: r)) with (part [] [] p ++ state [] [] r).
  assert (QS : forall b t, silent no_call b t -> silent (fun s => call_at s = None) b t) by (intros b t; apply silent_weaken; intros s; apply no_call_at).
  destruct p as [c|w d|w sp d].
  - destruct HE as (_ & HN & HE). rewrite findall_over; [rewrite state_shown; exact (IH _ HE)|]. apply QS, silent_cons; [apply no_call_here; [exact HE|exact HN]|apply silent_nil].
  - destruct HE as (Hw & Hd & _ & _ & _ & HH & HE). rewrite findall_over; [rewrite state_shown; exact (IH _ HE)|]. apply QS. cbn [part in_dec]. apply silent_power; assumption.
  - destruct HE as (Hw & _ & Hsp & Hd & _ & _ & HE). cbn [part in_dec]. rewrite (findall_here call_at (call (w, sp, d)) _ (w, sp, d)).
    + cbn [calls]. f_equal. rewrite state_shown. exact (IH _ HE).
    + apply call_not_nil.
    + apply call_at_call; assumption.
Qed.
Lemma call_unique w1 sp1 d1 w sp d t : word w1 -> forallb is_space sp1 = true -> digits d1 -> word w -> forallb is_space sp = true -> digits d ->
  starts (call (w1, sp1, d1)) (call (w, sp, d) ++ t) = true -> (w1, sp1, d1) = (w, sp, d).
Proof.
  intros Hw1 Hs1 Hd1 Hw Hs Hd H. apply starts_spec in H. destruct H as [r HE]. pose proof (call_at_call w sp d t Hw Hs Hd) as A. rewrite HE, (call_at_call w1 sp1 d1 r Hw1 Hs1 Hd1) in A. congruence.
Qed.
Lemma starts_call q s : starts (call q) s = true -> starts (txt "pow(") s = true.
Proof. destruct q as [[w sp] d]. intro H. apply starts_spec in H. destruct H as [r ->]. apply starts_spec. unfold call. rewrite <- !app_assoc. eexists. reflexivity. Qed.
Lemma replace_call w1 sp1 d1 P Q l : word w1 -> forallb is_space sp1 = true -> digits d1 -> (forall w d, In (Power w d) l -> In (w, d) P) ->
  forall prev, expression prev l -> replace (call (w1, sp1, d1)) (product w1 (dec d1)) 0 (state P Q l) = state P ((w1, sp1, d1) :: Q) l.
Proof.
  intros Hw1 Hs1 Hd1. induction l as [|p r IH]; intros HL prev HE; [reflexivity|].
  assert (IH' : forall prev, expression prev r -> replace (call (w1, sp1, d1)) (product w1 (dec d1)) 0 (state P Q r) = state P ((w1, sp1, d1) :: Q) r) by (apply IH; intros; apply HL; right; assumption).
  change (state P Q (p :: r)) with (part P Q p ++ state P Q r). change (state P ((w1, sp1, d1) :: Q) (p :: r)) with (part P ((w1, sp1, d1) :: Q) p ++ state P ((w1, sp1, d1) :: Q) r).
  assert (QS : forall b t, silent no_call b t -> silent (fun s => starts (call (w1, sp1, d1)) s = false) b t).
  { intros b t. apply silent_weaken. intros s Hs. destruct (starts (call _) s) eqn:ES; [|reflexivity]. apply starts_call in ES. unfold no_call in Hs. congruence. }
  assert (ST : forall s, still s -> no_call s) by (intros s [_ H]; exact H).
  destruct p as [c|w d|w sp d].
  - destruct HE as (_ & HN & HE). rewrite replace_over; [rewrite (IH' _ HE); reflexivity|]. apply QS, silent_cons; [apply no_call_here; [exact HE|exact HN]|apply silent_nil].
  - destruct HE as (Hw & Hd & _ & _ & _ & HH & HE). cbn [part]. destruct (in_dec pow_dec (w, d) P) as [_|HN]; [|exfalso; apply HN; apply HL; left; reflexivity].
    rewrite replace_over; [rewrite (IH' _ HE); reflexivity|]. apply QS. eapply silent_weaken; [exact ST|apply silent_product; exact Hw].
  - destruct HE as (Hw & _ & Hsp & Hd & _ & _ & HE). cbn [part]. destruct (in_dec call_dec (w, sp, d) ((w1, sp1, d1) :: Q)) as [HI|HI], (in_dec call_dec (w, sp, d) Q) as [HJ|HJ].
    + rewrite replace_over; [rewrite (IH' _ HE); reflexivity|]. apply QS. eapply silent_weaken; [exact ST|apply silent_product; exact Hw].
    + destruct HI as [HI|HI]; [|contradiction]. injection HI as -> -> ->. rewrite (replace_here (call (w, sp, d)) _ _ (call_not_nil _)). apply f_equal. exact (IH' _ HE).
    + exfalso. apply HI. right. exact HJ.
    + rewrite replace_over; [rewrite (IH' _ HE); reflexivity|]. intros a c Hac N. destruct a as [|x a].
      * cbn in Hac. subst c. destruct (starts (call (w1, sp1, d1)) _) eqn:ES; [|reflexivity]. exfalso. apply HI. left. eapply call_unique; [exact Hw1|exact Hs1|exact Hd1| | | |exact ES]; assumption.
      * revert a c Hac N. rewrite call_split. intros a c Hac N. cbn [app txt list_ascii_of_string] in Hac. injection Hac as _ Hac.
        assert (HT : silent no_call (txt "ow" ++ txt "(" ++ w ++ txt "," ++ sp ++ d ++ txt ")") (state P Q r)).
        { apply silent_app; [|eapply silent_weaken; [exact ST|apply silent_call_tail; assumption]]. apply silent_cons; [reflexivity|]. apply silent_cons; [reflexivity|]. apply silent_nil. }
        exact (QS _ _ HT a c Hac N).
Qed.
Lemma before_none old s : silent (fun t => starts old t = false) s [] -> before old s = s.
Proof.
  induction s as [|c s IH]; intro H; [reflexivity|]. cbn [before]. pose proof (H [] (c :: s) eq_refl ltac:(discriminate)) as H0. rewrite app_nil_r in H0. rewrite H0. f_equal. apply IH.
  intros a b HE N. apply (H (c :: a) b); [rewrite HE; reflexivity|exact N].
Qed.
Lemma before_char x b t : ~ In x b -> before [x] (b ++ x :: t) = b.
Proof.
  induction b as [|c b IH]; intro H; cbn [app before starts].
  - destruct (ascii_dec x x); [reflexivity|congruence].
  - destruct (ascii_dec x c) as [->|_]; [exfalso; apply H; left; reflexivity|]. f_equal. apply IH. intro; apply H. right. assumption.
Qed.
Lemma not_p s : hd_error s <> Some "p"%char -> starts (txt "pow") s = false.
Proof. destruct s as [|c s]; [reflexivity|]. intro H. change (txt "pow") with ("p"%char :: txt "ow"). cbn [starts]. destruct (ascii_dec "p" c) as [<-|_]; [exfalso; apply H; reflexivity|reflexivity]. Qed.
Lemma silent_no_p b t : ~ In "p"%char b -> silent (fun s => starts (txt "pow") s = false) b t.
Proof. intros H a c HE N. apply not_p. destruct c as [|x c]; [contradiction|]. cbn. intro HX. injection HX as ->. apply H. rewrite HE. apply in_or_app. right. left. reflexivity. Qed.
Lemma not_in_class (f : ascii -> bool) x u : forallb f u = true -> f x = false -> ~ In x u.
Proof. intros H Hx HI. rewrite forallb_forall in H. specialize (H x HI). congruence. Qed.
Lemma int_digits_digits d : digits d -> int_digits d = Some d.
Proof.
  intros [N H]. induction d as [|c d IH]; [contradiction|]. cbn in H. apply andb_prop in H as [Hc Hd]. cbn [int_digits]. rewrite Hc. destruct d as [|x d]; [reflexivity|].
  assert (IH' : int_digits (x :: d) = Some (x :: d)) by (apply IH; [discriminate|exact Hd]). rewrite IH'. cbn in Hd. apply andb_prop in Hd as [Hx _].
  destruct x as [[] [] [] [] [] [] [] []]; try reflexivity; discriminate Hx.
Qed.
Lemma call_new_call w sp d : word w -> without (txt "pow") w -> forallb is_space sp = true -> digits d -> call_new (w, sp, d) = Ok (product w (dec d)).
Proof.
  intros [Nw Hw] HN Hsp [Nd Hd]. pose proof (digits_words d Hd) as Hdw. unfold call_new. rewrite (before_none (txt "pow")).
  - replace (w ++ txt "," ++ sp ++ d ++ txt ")") with ((w ++ txt "," ++ sp ++ d) ++ ")"%char :: []) by (rewrite <- !app_assoc; reflexivity). change (txt ")") with [")"%char]. rewrite before_char.
    + unfold two_parts. change (w ++ txt "," ++ sp ++ d) with (w ++ ","%char :: sp ++ d). rewrite (span_run _ w ","%char (sp ++ d)); [|rewrite forallb_forall in *; intros x Hx; specialize (Hw x Hx); destruct (Ascii.eqb_spec x ","); [subst; discriminate Hw|reflexivity]|reflexivity].
      assert (HC : existsb (Ascii.eqb ",") (sp ++ d) = false).
      { apply not_true_is_false. rewrite existsb_exists. intros (x & Hx & HE). apply Ascii.eqb_eq in HE. subst x. apply in_app_or in Hx. destruct Hx as [Hx|Hx]; revert Hx; [apply (not_in_class is_space); [exact Hsp|reflexivity]|apply (not_in_class is_digit); [exact Hd|reflexivity]]. }
      rewrite HC. unfold int_of. pose proof (span_spaces sp d [] Hsp (conj Nd Hd)) as HS. rewrite app_nil_r in HS. rewrite HS. cbn [snd]. rewrite (int_digits_digits d (conj Nd Hd)). reflexivity.
    + intro HI. rewrite !in_app_iff in HI. destruct HI as [HI|[HI|[HI|HI]]]; revert HI; [apply (not_in_class is_word); [exact Hw|reflexivity]|intros [HI|[]]; discriminate HI|apply (not_in_class is_space); [exact Hsp|reflexivity]|apply (not_in_class is_digit); [exact Hd|reflexivity]].
  - apply silent_app.
    + intros a c HE N. rewrite app_nil_r. destruct (starts (txt "pow") _) eqn:ES; [|reflexivity]. exfalso. apply starts_spec in ES. destruct ES as [r HS]. destruct c as [|x [|y [|z c]]]; [contradiction|discriminate HS|discriminate HS|].
      injection HS as -> -> -> _. apply (HN a c). exact HE.
    + apply silent_no_p. intro HI. rewrite !in_app_iff in HI. destruct HI as [HI|[HI|[HI|HI]]]; revert HI; [intros [HI|[]]; discriminate HI|apply (not_in_class is_space); [exact Hsp|reflexivity]|apply (not_in_class is_digit); [exact Hd|reflexivity]|intros [HI|[]]; discriminate HI].
Qed.
Definition sound_call (q : text * text * text) : Prop := let '(w, sp, d) := q in word w /\ without (txt "pow") w /\ forallb is_space sp = true /\ digits d.
Definition new_call (q : text * text * text) : text * text := let '(w, sp, d) := q in (call q, product w (dec d)).
Lemma each_new_calls L : Forall sound_call L -> each_new L = Ok (map new_call L).
Proof. induction 1 as [|[[w sp] d] L (H1 & H2 & H3 & H4) _ IH]; [reflexivity|]. pose proof (call_new_call w sp d H1 H2 H3 H4) as HC. cbn [each_new]. match goal with |- context [call_new ?q] => replace (call_new q) with (@Ok text (product w (dec d))) by (symmetry; exact HC) end. rewrite IH. reflexivity. Qed.
Lemma replace_calls P l prev : expression prev l -> (forall w d, In (Power w d) l -> In (w, d) P) -> forall L Q, Forall sound_call L ->
  replace_all (map new_call L) (state P Q l) = state P (rev L ++ Q) l.
Proof.
  intros HE HP L. induction L as [|[[w sp] d] L IH]; intros Q HS; [reflexivity|]. inversion HS as [|x y HC HS']; subst. destruct HC as (H1 & H2 & H3 & H4).
  refine (eq_trans (f_equal (replace_all (map new_call L)) (replace_call w sp d P Q l H1 H3 H4 HP prev HE)) _). cbn [rev]. rewrite <- app_assoc. apply (IH ((w, sp, d) :: Q) HS').
Qed.

(* ------------------------------------------------- the whole *)
Lemma powers_in w d l : In (w, d) (powers l) <-> In (Power w d) l.
Proof. induction l as [|[c|u e|u s e] l IH]; cbn [powers In]; [reflexivity| | |]; rewrite ?IH; intuition congruence. Qed.
Lemma calls_in w sp d l : In (w, sp, d) (calls l) <-> In (Call w sp d) l.
Proof. induction l as [|[c|u e|u s e] l IH]; cbn [calls In]; [reflexivity| | |]; rewrite ?IH; intuition congruence. Qed.
Lemma power_sound l : forall prev w d, expression prev l -> In (Power w d) l -> word w /\ digits d.
Proof.
  induction l as [|p r IH]; intros prev w d HE HI; [destruct HI|]. destruct HI as [->|HI]; [destruct HE as (H1 & H2 & _); split; assumption|].
  destruct p; [destruct HE as (_ & _ & HE)|destruct HE as (_ & _ & _ & _ & _ & _ & HE)|destruct HE as (_ & _ & _ & _ & _ & _ & HE)]; exact (IH _ w d HE HI).
Qed.
Lemma calls_sound l : forall prev, expression prev l -> Forall sound_call (calls l).
Proof.
  induction l as [|p r IH]; intros prev HE; [constructor|].
  destruct p; [destruct HE as (_ & _ & HE)|destruct HE as (_ & _ & _ & _ & _ & _ & HE)|destruct HE as (H1 & H2 & H3 & H4 & _ & _ & HE)]; cbn [calls]; [exact (IH _ HE)|exact (IH _ HE)|].
  constructor; [repeat split; try assumption; try apply H1; try apply H4|exact (IH _ HE)].
Qed.
Lemma dec_number d : dec d = number d.
Proof.
  unfold dec. assert (H : forall n, fold_left (fun n c => 10 * n + (code c - 48)) d n = n * 10 ^ length d + number d).
  { induction d as [|c d IH]; intro n; cbn [fold_left number length]; [cbn; lia|]. rewrite IH. unfold code. rewrite Nat.pow_succ_r'. nia. }
  rewrite H. lia.
Qed.
Lemma join_repeat w n : join w (S n) = w ++ concat (repeat (txt "*" ++ w) n).
Proof. induction n as [|n IH]; [cbn; rewrite app_nil_r; reflexivity|]. change (join w (S (S n))) with (w ++ txt "*" ++ join w (S n)). rewrite IH. cbn [repeat concat]. rewrite <- app_assoc. reflexivity. Qed.
Lemma product_factors w n : 0 < n -> product w n = factors w n.
Proof. intro H. destruct n as [|n]; [lia|]. unfold product, factors. rewrite join_repeat. replace (S n - 1) with n by lia. rewrite <- app_assoc. reflexivity. Qed.
Lemma state_multiplied P Q l : forall prev, expression prev l -> (forall w d, In (Power w d) l -> In (w, d) P) -> (forall w sp d, In (Call w sp d) l -> In (w, sp, d) Q) -> state P Q l = multiplied l.
Proof.
  induction l as [|p r IH]; intros prev HE HP HQ; [reflexivity|]. change (state P Q (p :: r)) with (part P Q p ++ state P Q r). change (multiplied (p :: r)) with (multiplied1 p ++ multiplied r).
  assert (IH' : forall prev, expression prev r -> state P Q r = multiplied r) by (intros; eapply IH; [eassumption| |]; intros; [apply HP|apply HQ]; right; assumption).
  destruct p as [c|w d|w sp d]; cbn [part multiplied1].
  - destruct HE as (_ & _ & HE). rewrite (IH' _ HE). reflexivity.
  - destruct HE as (_ & _ & H0 & _ & _ & _ & HE). rewrite (IH' _ HE). destruct (in_dec pow_dec (w, d) P) as [_|N]; [|exfalso; apply N, HP; left; reflexivity]. rewrite dec_number, (product_factors w _ H0). reflexivity.
  - destruct HE as (_ & _ & _ & _ & H0 & _ & HE). rewrite (IH' _ HE). destruct (in_dec call_dec (w, sp, d) Q) as [_|N]; [|exfalso; apply N, HQ; left; reflexivity]. rewrite dec_number, (product_factors w _ H0). reflexivity.
Qed.
Theorem multiplies l : expression None l -> pow2mult (shown l) = Ok (multiplied l).
Proof.
  intro HE. unfold pow2mult. rewrite (find_powers l None HE), (find_calls l None HE), (each_new_calls _ (calls_sound l None HE)). f_equal.
  change (map (fun p => (power p, product (fst p) (dec (snd p)))) (longest_first (powers l))) with (map new_power (longest_first (powers l))). rewrite <- state_shown.
  assert (HP : forall w d, In (Power w d) l -> In (w, d) (longest_first (powers l))) by (intros w d H; rewrite longest_in, powers_in; exact H).
  rewrite (replace_powers [] l None HE _ []); [|apply longest_sorted|intros w d H; rewrite longest_in, powers_in in H; exact (power_sound l None w d HE H)|intros w d H; right; exact (HP w d H)].
  assert (HP' : forall w d, In (Power w d) l -> In (w, d) (rev (longest_first (powers l)) ++ [])) by (intros w d H; rewrite app_nil_r, <- in_rev; exact (HP w d H)).
  rewrite (replace_calls _ l None HE HP' _ [] (calls_sound l None HE)). apply (state_multiplied _ _ l None HE HP'). intros w sp d H. rewrite app_nil_r, <- in_rev. apply calls_in. exact H.
Qed.

(* ------------------------------------------------- without sorting *)
Lemma replace_powers_in_order Q l prev : expression prev l -> forall L P, (forall w d, In (w, d) L -> word w /\ digits d) ->
  (forall w d w1 d1, In (Power w d) l -> In (w1, d1) L -> (w, d) = (w1, d1) \/ without (power (w1, d1)) (power (w, d))) ->
  replace_all (map new_power L) (state P Q l) = state (rev L ++ P) Q l.
Proof.
  intros HE L. induction L as [|[w1 d1] L IH]; intros P HG HC; [reflexivity|]. destruct (HG w1 d1 (or_introl eq_refl)) as [Hw Hd].
  assert (HR : replace (power (w1, d1)) (product w1 (dec d1)) 0 (state P Q l) = state ((w1, d1) :: P) Q l).
  { apply (replace_power w1 d1 P Q l Hw Hd) with (prev := prev); [|exact HE]. intros w d Hp. right. apply HC; [exact Hp|left; reflexivity]. }
  refine (eq_trans (f_equal (replace_all (map new_power L)) HR) _). cbn [rev]. rewrite <- app_assoc. apply (IH ((w1, d1) :: P)); [intros; apply HG; right; assumption|intros; apply HC; [assumption|right; assumption]].
Qed.
Lemma state_powers P l : forall prev, expression prev l -> (forall w d, In (Power w d) l -> In (w, d) P) -> state P [] l = powers_multiplied l.
Proof.
  induction l as [|p r IH]; intros prev HE HP; [reflexivity|].
  assert (IH' : forall prev, expression prev r -> state P [] r = powers_multiplied r) by (intros; eapply IH; [eassumption|]; intros; apply HP; right; assumption).
  destruct p as [c|w d|w sp d].
  - destruct HE as (_ & _ & HE). refine (f_equal (cons c) (IH' _ HE)).
  - destruct HE as (_ & _ & H0 & _ & _ & _ & HE). change (part P [] (Power w d) ++ state P [] r = factors w (number d) ++ powers_multiplied r). rewrite (IH' _ HE). cbn [part]. destruct (in_dec pow_dec (w, d) P) as [_|N]; [|exfalso; apply N, HP; left; reflexivity]. rewrite dec_number, (product_factors w _ H0). reflexivity.
  - destruct HE as (_ & _ & _ & _ & H0 & _ & HE). refine (f_equal (app (call (w, sp, d))) (IH' _ HE)).
Qed.
Theorem array_multiplies l : expression None l -> (forall w d w1 d1, In (Power w d) l -> In (Power w1 d1) l -> (w, d) = (w1, d1) \/ without (shown1 (Power w1 d1)) (shown1 (Power w d))) ->
  array_powers (shown l) = powers_multiplied l.
Proof.
  intros HE HC. unfold array_powers. rewrite (find_powers l None HE), <- state_shown.
  change (map (fun p => (power p, product (fst p) (dec (snd p)))) (powers l)) with (map new_power (powers l)).
  rewrite (replace_powers_in_order [] l None HE _ []); [|intros w d H; apply powers_in in H; exact (power_sound l None w d HE H)|intros w d w1 d1 H1 H2; apply powers_in in H2; exact (HC w d w1 d1 H1 H2)].
  apply (state_powers _ l None HE). intros w d H. rewrite app_nil_r, <- in_rev. apply powers_in. exact H.
Qed.
Lemma plain s : shown (map Char s) = s /\ multiplied (map Char s) = s.
Proof. induction s as [|c s [I1 I2]]; [split; reflexivity|]. split; [exact (f_equal (cons c) I1)|exact (f_equal (cons c) I2)]. Qed.
