(* Finite sums over the real numbers.  Pure mathematics, no model of code. *)
From Coq Require Import Reals List Arith Lia Lra Permutation.
Import ListNotations.
Open Scope R_scope.

(* sum of f 0 .. f (n-1) *)
Fixpoint sumn (n : nat) (f : nat -> R) : R :=
  match n with O => 0 | S k => sumn k f + f k end.

(* sum of f over the elements of a list *)
Fixpoint suml {A : Type} (l : list A) (f : A -> R) : R :=
  match l with [] => 0 | x :: t => f x + suml t f end.

Lemma sumn_ext n f g : (forall i, (i < n)%nat -> f i = g i) -> sumn n f = sumn n g.
Proof.
  induction n as [|n IH]; intro H; cbn [sumn]; [reflexivity|].
  rewrite IH, H; auto with arith. 
Qed.

Lemma sumn_0 n f : (forall i, (i < n)%nat -> f i = 0) -> sumn n f = 0.
Proof.
  intro H. rewrite (sumn_ext n f (fun _ => 0)) by exact H.
  clear H. induction n as [|n IH]; cbn [sumn]; [reflexivity|rewrite IH; ring].
Qed.

Lemma sumn_plus n f g : sumn n (fun i => f i + g i) = sumn n f + sumn n g.
Proof. induction n as [|n IH]; cbn [sumn]; [ring|rewrite IH; ring]. Qed.

Lemma sumn_minus n f g : sumn n (fun i => f i - g i) = sumn n f - sumn n g.
Proof. induction n as [|n IH]; cbn [sumn]; [ring|rewrite IH; ring]. Qed.

Lemma sumn_opp n f : sumn n (fun i => - f i) = - sumn n f.
Proof. induction n as [|n IH]; cbn [sumn]; [ring|rewrite IH; ring]. Qed.

Lemma sumn_scal n c f : sumn n (fun i => c * f i) = c * sumn n f.
Proof. induction n as [|n IH]; cbn [sumn]; [ring|rewrite IH; ring]. Qed.

Lemma sumn_scal_r n c f : sumn n (fun i => f i * c) = sumn n f * c.
Proof. induction n as [|n IH]; cbn [sumn]; [ring|rewrite IH; ring]. Qed.

Lemma sumn_swap n m f :
  sumn n (fun i => sumn m (fun j => f i j)) = sumn m (fun j => sumn n (fun i => f i j)).
Proof.
  induction n as [|n IH]; cbn [sumn].
  - symmetry. apply sumn_0. reflexivity.
  - rewrite IH, <- sumn_plus. reflexivity.
Qed.

Lemma sumn_add_len n k f : sumn (n + k) f = sumn n f + sumn k (fun i => f (n + i)%nat).
Proof.
  induction k as [|k IH].
  - rewrite Nat.add_0_r. cbn [sumn]. ring.
  - rewrite Nat.add_succ_r. cbn [sumn]. rewrite IH. ring.
Qed.

(* flatten a double sum: j outer (n values), i inner (m values), index j*m+i *)
Lemma sumn_flatten n m f :
  sumn n (fun j => sumn m (fun i => f (j * m + i)%nat)) = sumn (n * m) f.
Proof.
  induction n as [|n IH]; cbn [sumn Nat.mul]; [reflexivity|].
  rewrite IH, (Nat.add_comm m), sumn_add_len. reflexivity.
Qed.

Lemma sumn_single n a f : 
  sumn n (fun i => if (i =? a)%nat then f i else 0) = if (a <? n)%nat then f a else 0.
Proof.
  induction n as [|n IH]; cbn [sumn]; [reflexivity|].
  rewrite IH.
  destruct (Nat.eqb_spec n a) as [E|E];
    destruct (Nat.ltb_spec a n); destruct (Nat.ltb_spec a (S n));
    try (exfalso; lia); try (rewrite E); ring.
Qed.

Lemma sumn_ge0 n f : (forall i, (i < n)%nat -> 0 <= f i) -> 0 <= sumn n f.
Proof.
  induction n as [|n IH]; intro H; cbn [sumn]; [lra|].
  assert (0 <= sumn n f) by (apply IH; auto with arith).
  assert (0 <= f n) by (apply H; auto with arith). lra.
Qed.

Lemma sumn_le n f g : (forall i, (i < n)%nat -> f i <= g i) -> sumn n f <= sumn n g.
Proof.
  induction n as [|n IH]; intro H; cbn [sumn]; [lra|].
  assert (sumn n f <= sumn n g) by (apply IH; auto with arith).
  assert (f n <= g n) by (apply H; auto with arith). lra.
Qed.

Lemma sumn_abs n f : Rabs (sumn n f) <= sumn n (fun i => Rabs (f i)).
Proof.
  induction n as [|n IH]; cbn [sumn]; [rewrite Rabs_R0; lra|].
  eapply Rle_trans; [apply Rabs_triang|lra].
Qed.

Lemma sumn_shrink n N f : (n <= N)%nat ->
  (forall i, (n <= i)%nat -> (i < N)%nat -> f i = 0) -> sumn N f = sumn n f.
Proof.
  intros Hn H. replace N with (n + (N - n))%nat by lia.
  rewrite sumn_add_len, (sumn_0 (N - n)); [ring|].
  intros i Hi. apply H; lia.
Qed.

(* only the window [o, o+n) of [0, N) contributes *)
Lemma sumn_window o n N f : (o + n <= N)%nat ->
  (forall i, (i < N)%nat -> (i < o \/ o + n <= i)%nat -> f i = 0) ->
  sumn N f = sumn n (fun i => f (o + i)%nat).
Proof.
  intros Hn H. rewrite (sumn_shrink (o + n) N) by (try lia; intros; apply H; lia).
  rewrite sumn_add_len, (sumn_0 o); [ring|]. intros i Hi. apply H; lia.
Qed.

Lemma sumn_mult n m f g :
  sumn n f * sumn m g = sumn n (fun i => sumn m (fun j => f i * g j)).
Proof.
  rewrite <- sumn_scal_r. apply sumn_ext. intros i _. rewrite sumn_scal. reflexivity.
Qed.

(* ------------------------------------------------------------- list sums *)
Lemma suml_ext {A} (l : list A) f g : (forall x, In x l -> f x = g x) -> suml l f = suml l g.
Proof.
  induction l as [|x l IH]; intro H; cbn [suml]; [reflexivity|].
  rewrite IH, H; auto with datatypes.
Qed.

Lemma suml_0 {A} (l : list A) f : (forall x, In x l -> f x = 0) -> suml l f = 0.
Proof.
  induction l as [|x l IH]; intro H; cbn [suml]; [reflexivity|].
  rewrite IH, H; auto with datatypes; ring.
Qed.

Lemma suml_app {A} (l1 l2 : list A) f : suml (l1 ++ l2) f = suml l1 f + suml l2 f.
Proof. induction l1 as [|x l IH]; cbn [suml app]; [ring|rewrite IH; ring]. Qed.

Lemma suml_flat_map {A B} (l : list A) (g : A -> list B) f :
  suml (flat_map g l) f = suml l (fun x => suml (g x) f).
Proof.
  induction l as [|x l IH]; cbn [suml flat_map]; [reflexivity|].
  rewrite suml_app, IH. reflexivity.
Qed.

Lemma suml_map {A B} (l : list A) (g : A -> B) f :
  suml (map g l) f = suml l (fun x => f (g x)).
Proof. induction l as [|x l IH]; cbn [suml map]; [reflexivity|rewrite IH; reflexivity]. Qed.

Lemma suml_plus {A} (l : list A) f g : suml l (fun x => f x + g x) = suml l f + suml l g.
Proof. induction l as [|x l IH]; cbn [suml]; [ring|rewrite IH; ring]. Qed.

Lemma suml_minus {A} (l : list A) f g : suml l (fun x => f x - g x) = suml l f - suml l g.
Proof. induction l as [|x l IH]; cbn [suml]; [ring|rewrite IH; ring]. Qed.

Lemma suml_scal {A} (l : list A) c f : suml l (fun x => c * f x) = c * suml l f.
Proof. induction l as [|x l IH]; cbn [suml]; [ring|rewrite IH; ring]. Qed.

Lemma suml_scal_r {A} (l : list A) c f : suml l (fun x => f x * c) = suml l f * c.
Proof. induction l as [|x l IH]; cbn [suml]; [ring|rewrite IH; ring]. Qed.

Lemma suml_seq n f : forall o, suml (seq o n) f = sumn n (fun i => f (o + i)%nat).
Proof.
  induction n as [|n IH]; intro o; [reflexivity|].
  rewrite seq_S, suml_app, IH. cbn [suml sumn]. ring.
Qed.

Lemma suml_seq0 n f : suml (seq 0 n) f = sumn n f.
Proof. rewrite suml_seq. reflexivity. Qed.

Lemma suml_swap {A B} (l : list A) (k : list B) f :
  suml l (fun x => suml k (fun y => f x y)) = suml k (fun y => suml l (fun x => f x y)).
Proof.
  induction l as [|x l IH]; cbn [suml].
  - symmetry. apply suml_0. reflexivity.
  - rewrite IH, <- suml_plus. reflexivity.
Qed.

Lemma suml_sumn_swap {A} (l : list A) n f :
  suml l (fun x => sumn n (fun y => f x y)) = sumn n (fun y => suml l (fun x => f x y)).
Proof.
  induction l as [|x l IH]; cbn [suml].
  - symmetry. apply sumn_0. reflexivity.
  - rewrite IH, <- sumn_plus. reflexivity.
Qed.

Lemma suml_ge0 {A} (l : list A) f : (forall x, In x l -> 0 <= f x) -> 0 <= suml l f.
Proof.
  induction l as [|x l IH]; intro H; cbn [suml]; [lra|].
  assert (0 <= suml l f) by (apply IH; auto with datatypes).
  assert (0 <= f x) by (apply H; auto with datatypes). lra.
Qed.

Lemma suml_abs {A} (l : list A) f : Rabs (suml l f) <= suml l (fun i => Rabs (f i)).
Proof.
  induction l as [|x l IH]; cbn [suml]; [rewrite Rabs_R0; lra|].
  eapply Rle_trans; [apply Rabs_triang|lra].
Qed.

Lemma suml_le {A} (l : list A) f g : (forall i, In i l -> f i <= g i) -> suml l f <= suml l g.
Proof.
  induction l as [|x l IH]; intro H; cbn [suml]; [lra|].
  assert (suml l f <= suml l g) by (apply IH; auto with datatypes).
  assert (f x <= g x) by (apply H; auto with datatypes). lra.
Qed.

Lemma suml_perm {A} (l k : list A) f : Permutation l k -> suml l f = suml k f.
Proof. induction 1; cbn [suml]; lra. Qed.
