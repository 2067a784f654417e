(** Common vocabulary of the model: bytes, machine integers as [N], the result
    monad with an explicit panic value, short-circuiting iterator combinators,
    [BTreeMap]/[BTreeSet] as sorted association lists. *)
From Coq Require Export Init.Byte.
From Coq Require Import Strings.Byte NArith Lia.
From stdpp Require Export base tactics list gmap sorting countable numbers option fin_sets fin_map_dom.
From Coq Require Export ZifyBool ZifyNat ZifyN.
#[global] Open Scope N_scope.
#[global] Arguments N.add : simpl never.
#[global] Arguments N.mul : simpl never.
#[global] Arguments N.sub : simpl never.
#[global] Arguments N.div : simpl never.
#[global] Arguments N.modulo : simpl never.
#[global] Arguments N.pow : simpl never.
#[global] Arguments N.eqb : simpl never.
#[global] Arguments N.ltb : simpl never.
#[global] Arguments N.leb : simpl never.
#[global] Arguments N.compare : simpl never.
#[global] Arguments N.land : simpl never.
#[global] Arguments N.lor : simpl never.
#[global] Arguments N.shiftl : simpl never.
#[global] Arguments N.shiftr : simpl never.
#[global] Arguments N.of_nat : simpl never.
#[global] Arguments N.to_nat : simpl never.
#[global] Arguments N.max : simpl never.

(** ** Bytes.  Rust [u8]; by construction 0..255. *)
#[global] Instance byte_eq_dec : EqDecision byte := Byte.byte_eq_dec.
Notation bytes := (list byte).

(** Value of a byte. *)
Definition b2n (b : byte) : N := Byte.to_N b.
(** The byte [n mod 256] (Rust [n as u8]). *)
Definition n2b (n : N) : byte :=
  match Byte.of_N (n mod 256) with Some b => b | None => "000"%byte end.

Lemma b2n_lt b : b2n b < 256.
Proof. unfold b2n. pose proof (Byte.to_N_bounded b). lia. Qed.
Lemma b2n_n2b n : b2n (n2b n) = n mod 256.
Proof.
  unfold b2n, n2b. destruct (Byte.of_N (n mod 256)) as [b|] eqn:E.
  - by apply Byte.to_of_N in E.
  - apply Byte.of_N_None_iff in E. pose proof (N.mod_lt n 256). lia.
Qed.
Lemma n2b_b2n b : n2b (b2n b) = b.
Proof.
  unfold b2n, n2b. rewrite N.mod_small by apply (b2n_lt b).
  by rewrite Byte.of_to_N.
Qed.
Lemma b2n_inj x y : b2n x = b2n y -> x = y.
Proof. intros H. rewrite <- (n2b_b2n x), <- (n2b_b2n y). by rewrite H. Qed.

#[global] Instance byte_countable : Countable byte := inj_countable' b2n n2b n2b_b2n.

(** Length of a list as an unbounded number (Rust [usize]; 64 bit). *)
Definition lenN {A} (l : list A) : N := N.of_nat (length l).

(** Little-endian encoding of [n] on [k] bytes (Rust [to_le_bytes]). *)
Fixpoint le (k : nat) (n : N) : bytes :=
  match k with O => [] | S k' => n2b n :: le k' (n / 256) end.
(** Little-endian value of a byte string (Rust [from_le_bytes]). *)
Fixpoint unle (l : bytes) : N :=
  match l with [] => 0 | b :: l' => b2n b + 256 * unle l' end.

Lemma le_length k n : length (le k n) = k.
Proof. revert n. induction k; intros; simpl; auto. Qed.
Lemma unle_le k n : unle (le k n) = n mod 256 ^ N.of_nat k.
Proof.
  revert n. induction k as [|k IH]; intros n.
  - simpl. by rewrite N.mod_1_r.
  - simpl le. simpl unle. rewrite IH, b2n_n2b.
    rewrite Nat2N.inj_succ, N.pow_succ_r'.
    rewrite N.mod_mul_r; [done|lia|]. apply N.pow_nonzero; lia.
Qed.
Lemma unle_lt l : unle l < 256 ^ lenN l.
Proof.
  unfold lenN. induction l as [|b l IH]; simpl length; simpl unle; [done|].
  rewrite Nat2N.inj_succ, N.pow_succ_r'. pose proof (b2n_lt b). nia.
Qed.
Lemma le_unle l : le (length l) (unle l) = l.
Proof.
  induction l as [|b l IH]; simpl; [done|].
  pose proof (b2n_lt b).
  f_equal.
  - rewrite <- (n2b_b2n b) at 2. unfold n2b. f_equal.
    replace ((b2n b + 256 * unle l) mod 256) with (b2n b mod 256); [done|].
    rewrite (N.mul_comm 256). by rewrite N.mod_add by lia.
  - replace ((b2n b + 256 * unle l) / 256) with (unle l); [done|].
    rewrite (N.mul_comm 256). rewrite N.div_add by lia.
    rewrite N.div_small by lia. lia.
Qed.
Lemma unle_le_small k n : n < 256 ^ N.of_nat k -> unle (le k n) = n.
Proof. intros. rewrite unle_le. by apply N.mod_small. Qed.
Lemma le_inj k n m : n < 256 ^ N.of_nat k -> m < 256 ^ N.of_nat k -> le k n = le k m -> n = m.
Proof. intros Hn Hm H. rewrite <- (unle_le_small k n), <- (unle_le_small k m) by done. by rewrite H. Qed.

(** ** Panics.  [Done a] = the call returned [a]; [Panic] = the thread panicked. *)
Inductive res (A : Type) := Done (a : A) | Panic.
Arguments Done {_} _.
Arguments Panic {_}.
#[global] Instance res_eq_dec {A} `{EqDecision A} : EqDecision (res A).
Proof. solve_decision. Defined.
#[global] Instance res_ret : MRet res := fun A a => Done a.
#[global] Instance res_bind : MBind res := fun A B f m =>
  match m with Done a => f a | Panic => Panic end.
(** [Option::unwrap] / [expect]. *)
Definition unwrap {A} (o : option A) : res A :=
  match o with Some a => Done a | None => Panic end.

(** [Iterator::any] / [Iterator::all] with short circuit, on a test that may panic. *)
Fixpoint any_r {A} (f : A -> res bool) (l : list A) : res bool :=
  match l with
  | [] => Done false
  | x :: l' => match f x with
               | Done true => Done true
               | Done false => any_r f l'
               | Panic => Panic
               end
  end.
Fixpoint all_r {A} (f : A -> res bool) (l : list A) : res bool :=
  match l with
  | [] => Done true
  | x :: l' => match f x with
               | Done true => all_r f l'
               | Done false => Done false
               | Panic => Panic
               end
  end.

Lemma all_r_true {A} (f : A -> res bool) l :
  all_r f l = Done true <-> forall x, x ∈ l -> f x = Done true.
Proof.
  induction l as [|x l IH]; simpl.
  - split; [intros _ x Hx; by apply elem_of_nil in Hx|done].
  - destruct (f x) as [[]|] eqn:E.
    + rewrite IH. split.
      * intros H y [->|Hy]%elem_of_cons; auto.
      * intros H y Hy. apply H. by right.
    + split; [done|]. intros H. specialize (H x). rewrite E in H. feed specialize H; [left|done].
    + split; [done|]. intros H. specialize (H x). rewrite E in H. feed specialize H; [left|done].
Qed.
Lemma any_r_true {A} (f : A -> res bool) l :
  (forall x, x ∈ l -> f x <> Panic) ->
  any_r f l = Done true <-> exists x, x ∈ l /\ f x = Done true.
Proof.
  induction l as [|x l IH]; simpl; intros Hnp.
  - split; [done|]. intros (x & Hx & _). by apply elem_of_nil in Hx.
  - destruct (f x) as [[]|] eqn:E.
    + split; [|done]. intros _. exists x. split; [left|done].
    + rewrite IH; [|intros y Hy; apply Hnp; by right]. split.
      * intros (y & Hy & Hf). exists y. split; [by right|done].
      * intros (y & Hy & Hf). apply elem_of_cons in Hy as [->|Hy]; [congruence|]. eauto.
    + exfalso. apply (Hnp x); [left|done].
Qed.
Lemma any_r_nopanic {A} (f : A -> res bool) l :
  (forall x, x ∈ l -> f x <> Panic) -> any_r f l <> Panic.
Proof.
  induction l as [|x l IH]; simpl; intros Hnp; [done|].
  pose proof (Hnp x ltac:(left)) as Hx. destruct (f x) as [[]|]; try done.
  apply IH. intros y Hy. apply Hnp. by right.
Qed.
Lemma all_r_nopanic {A} (f : A -> res bool) l :
  (forall x, x ∈ l -> f x <> Panic) -> all_r f l <> Panic.
Proof.
  induction l as [|x l IH]; simpl; intros Hnp; [done|].
  pose proof (Hnp x ltac:(left)) as Hx. destruct (f x) as [[]|]; try done.
  apply IH. intros y Hy. apply Hnp. by right.
Qed.
Lemma any_r_app_true {A} (f : A -> res bool) l1 l2 :
  any_r f l1 = Done true -> any_r f (l1 ++ l2) = Done true.
Proof.
  induction l1 as [|x l IH]; simpl; [done|]. destruct (f x) as [[]|]; auto.
Qed.

(** ** Lexicographic comparison of number lists: the order derived by Rust for
    sequences (a proper prefix is smaller). *)
Fixpoint lexcmp (a b : list N) : comparison :=
  match a, b with
  | [], [] => Eq
  | [], _ => Lt
  | _, [] => Gt
  | x :: a', y :: b' => match N.compare x y with Eq => lexcmp a' b' | c => c end
  end.
Lemma lexcmp_eq a b : lexcmp a b = Eq <-> a = b.
Proof.
  revert b. induction a as [|x a IH]; intros [|y b]; simpl; try done.
  destruct (N.compare_spec x y) as [->|?|?].
  - rewrite IH. split; congruence.
  - split; [done|]. intros [= -> ->]. lia.
  - split; [done|]. intros [= -> ->]. lia.
Qed.
Lemma lexcmp_refl a : lexcmp a a = Eq.
Proof. by apply lexcmp_eq. Qed.
Lemma lexcmp_antisym a b : lexcmp b a = CompOpp (lexcmp a b).
Proof.
  revert b. induction a as [|x a IH]; intros [|y b]; simpl; try done.
  rewrite (N.compare_antisym x y). destruct (N.compare x y); simpl; auto.
Qed.
Lemma lexcmp_trans a b c : lexcmp a b = Lt -> lexcmp b c = Lt -> lexcmp a c = Lt.
Proof.
  revert b c. induction a as [|x a IH]; intros [|y b] [|z c]; simpl; try done.
  destruct (N.compare_spec x y), (N.compare_spec y z); subst; intros; try done.
  - rewrite N.compare_refl. eauto.
  - by destruct (N.compare_spec y z); try lia.
  - by destruct (N.compare_spec x z); try lia.
  - by destruct (N.compare_spec x z); try lia.
Qed.

(** ** [BTreeMap<u64, A>] as an association list, strictly sorted by key. *)
Notation smap A := (list (N * A)).
Fixpoint sm_get {A} (k : N) (m : smap A) : option A :=
  match m with
  | [] => None
  | (k', v) :: m' => if k =? k' then Some v else sm_get k m'
  end.
(** [BTreeMap::insert]. *)
Fixpoint sm_put {A} (k : N) (v : A) (m : smap A) : smap A :=
  match m with
  | [] => [(k, v)]
  | (k', v') :: m' =>
      if k <? k' then (k, v) :: m
      else if k =? k' then (k, v) :: m'
      else (k', v') :: sm_put k v m'
  end.
(** [BTreeMap::remove]. *)
Fixpoint sm_del {A} (k : N) (m : smap A) : smap A :=
  match m with
  | [] => []
  | (k', v') :: m' => if k =? k' then m' else (k', v') :: sm_del k m'
  end.
Definition sm_sorted {A} (m : smap A) : Prop := Sorted N.lt (m.*1).
