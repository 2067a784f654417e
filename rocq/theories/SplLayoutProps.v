(** C41: which bytes are a token account, a mint or a multisig account, by the published layouts; which programs' accounts are looked at. *)
From Verif Require Import Base DataModel BincodeModel BincodeProofs FilterModel FilterProps Base58Model FilterJsonSpec TokenModel TokenProofs SplModel SplProofs
  TokenUtilsModel TokenUtilsProofs TokenUtilsProps.
From Coq Require String.
Import String.StringSyntax.
#[local] Delimit Scope string_scope with string.
#[local] Open Scope N_scope.
#[local] Arguments le : simpl never.
#[local] Arguments unle : simpl never.

(** ** The layouts, by offsets *)
(** The [n] bytes at [off] are the number [x], little-endian. *)
Definition field (v : bytes) (off n : nat) (x : N) : Prop := take n (drop off v) = le n x /\ x < 256 ^ N.of_nat n.
(** Optional fields have a tag of four bytes; without a value, the bytes of the value mean nothing. *)
Definition opt_field (v : bytes) (off n : nat) (o : option N) : Prop :=
  match o with None => field v off 4 0 | Some x => field v off 4 1 /\ field v (off + 4) n x end.
Definition state_number (s : tstate) : N := match s with Uninit => 0 | Init => 1 | Frozen => 2 end.
Definition flag_number (b : bool) : N := if b then 1 else 0.
(** spl_token::state::Account: mint, owner, amount, delegate, state, is_native, delegated_amount, close_authority. *)
Definition token_fields (v : bytes) (r : spl_account) : Prop :=
  field v 0 32 (sa_mint r) /\ field v 32 32 (sa_owner r) /\ field v 64 8 (sa_amount r) /\ opt_field v 72 32 (sa_delegate r) /\
  field v 108 1 (state_number (sa_state r)) /\ opt_field v 109 8 (sa_native r) /\ field v 121 8 (sa_delegated r) /\ opt_field v 129 32 (sa_close r).
Definition token_layout (v : bytes) (r : spl_account) : Prop := length v = 165%nat /\ token_fields v r.
(** spl_token::state::Mint: mint_authority, supply, decimals, is_initialized, freeze_authority. *)
Definition mint_fields (v : bytes) (r : spl_mint) : Prop :=
  opt_field v 0 32 (sm_authority r) /\ field v 36 8 (sm_supply r) /\ field v 44 1 (sm_decimals r) /\
  field v 45 1 (flag_number (sm_init r)) /\ opt_field v 46 32 (sm_freeze r).
Definition mint_layout (v : bytes) (r : spl_mint) : Prop := length v = 82%nat /\ mint_fields v r.
(** spl_token::state::Multisig: m, n, is_initialized, eleven signers. *)
Definition multisig_fields (v : bytes) (r : spl_multisig) : Prop :=
  field v 0 1 (ms_m r) /\ field v 1 1 (ms_n r) /\ field v 2 1 (flag_number (ms_init r)) /\
  length (ms_signers r) = 11%nat /\ forall i p, ms_signers r !! i = Some p -> field v (3 + 32 * i) 32 p.
Definition multisig_layout (v : bytes) (r : spl_multisig) : Prop := length v = 355%nat /\ multisig_fields v r.

(** ** Decoding at an offset *)
Definition reads_at {A} (d : dec A) (v : bytes) (off n : nat) (P : A -> Prop) : Prop :=
  forall x r, d (drop off v) = Some (x, r) <-> P x /\ r = drop (off + n) v.
Lemma uint_at v off n : (off + n <= length v)%nat -> reads_at (d_uint n) v off n (field v off n).
Proof.
  intros Hl x r. unfold d_uint, d_bind, d_take, d_ret. rewrite drop_length, (proj2 (Nat.leb_le n (length v - off))) by lia. rewrite drop_drop.
  assert (length (take n (drop off v)) = n) as Hn by (rewrite take_length, drop_length; lia). unfold field. split.
  - intros [= <- <-]. split; [|done]. split; [by rewrite <- Hn at 2; rewrite le_unle|]. pose proof (unle_lt (take n (drop off v))) as H. unfold lenN in H. by rewrite Hn in H.
  - intros [[H Hx] ->]. rewrite H, unle_le_small by done. done.
Qed.
Lemma bind_at {A B} (d : dec A) (f : A -> dec B) v off n m P Q : reads_at d v off n P -> (forall a, P a -> reads_at (f a) v (off + n) m (Q a)) ->
  reads_at (d_bind d f) v off (n + m) (fun b => exists a, P a /\ Q a b).
Proof.
  intros Hd Hf y r. unfold d_bind. replace (off + (n + m))%nat with (off + n + m)%nat by lia. split.
  - destruct (d (drop off v)) as [[a r']|] eqn:E; [|done]. apply Hd in E as [Ha ->]. intros H. apply (Hf a Ha) in H as [? ->]. eauto.
  - intros [(a & Ha & HQ) ->]. assert (d (drop off v) = Some (a, drop (off + n) v)) as -> by (apply Hd; done). by apply (Hf a Ha).
Qed.
Lemma ret_at {A} (a : A) v off : reads_at (d_ret a) v off 0 (fun x => x = a).
Proof. intros x r. unfold d_ret. rewrite Nat.add_0_r. split; [by intros [= <- <-]|by intros [-> ->]]. Qed.
Lemma fail_at {A} v off n : reads_at (@d_fail A) v off n (fun _ => False).
Proof. intros x r. split; [done|by intros [[] _]]. Qed.
Lemma at_impl {A} (d : dec A) v off n m P Q : reads_at d v off n P -> n = m -> (forall x, P x <-> Q x) -> reads_at d v off m Q.
Proof. intros H <- HPQ x r. by rewrite (H x r), HPQ. Qed.
Lemma field_fun v off n x y : field v off n x -> field v off n y -> x = y.
Proof. intros [H Hx] [H' Hy]. rewrite H in H'. apply (f_equal unle) in H'. by rewrite !unle_le_small in H' by done. Qed.
Lemma field_some v off n : (off + n <= length v)%nat -> exists x, field v off n x.
Proof.
  intros H. exists (unle (take n (drop off v))). assert (length (take n (drop off v)) = n) as Hn by (rewrite take_length, drop_length; lia).
  split; [by rewrite <- Hn at 2; rewrite le_unle|]. pose proof (unle_lt (take n (drop off v))) as Hu. unfold lenN in Hu. by rewrite Hn in Hu.
Qed.
Lemma copt_at v off n : (off + (4 + n) <= length v)%nat -> reads_at (d_copt n) v off (4 + n) (opt_field v off n).
Proof.
  intros Hl. unfold d_copt. eapply at_impl.
  - eapply bind_at; [apply (uint_at v off 4); lia|]. intros t Ht. eapply (bind_at _ _ v (off + 4) n 0); [apply uint_at; lia|]. intros x Hx.
    instantiate (1 := fun x o => t = 0 /\ o = None \/ t = 1 /\ o = Some x). destruct (N.eqb_spec t 0) as [->|H0]; [|destruct (N.eqb_spec t 1) as [->|H1]].
    + eapply at_impl; [apply ret_at|done|]. intros o. naive_solver.
    + eapply at_impl; [apply ret_at|done|]. intros o. naive_solver.
    + eapply at_impl; [apply fail_at|done|]. intros o. naive_solver.
  - lia.
  - intros o. simpl. split.
    + intros (t & Ht & x & Hx & [[-> ->]|[-> ->]]); done.
    + destruct o as [x|]; simpl.
      * intros [H1 H2]. exists 1. split; [done|]. exists x. split; [done|by right].
      * intros H. exists 0. split; [done|]. destruct (field_some v (off + 4) n) as [x Hx]; [lia|]. exists x. split; [done|by left].
Qed.
Lemma state_at v off : (off + 1 <= length v)%nat -> reads_at d_state v off 1 (fun s => field v off 1 (state_number s)).
Proof.
  intros Hl. unfold d_state. eapply at_impl.
  - eapply (bind_at _ _ v off 1 0); [apply (uint_at v off 1); lia|]. intros t Ht. instantiate (1 := fun t s => t = state_number s).
    destruct (N.eqb_spec t 0) as [->|]; [|destruct (N.eqb_spec t 1) as [->|]; [|destruct (N.eqb_spec t 2) as [->|]]].
    1-3: eapply at_impl; [apply ret_at|done|]; intros []; simpl; naive_solver.
    eapply at_impl; [apply fail_at|done|]. intros []; simpl; naive_solver.
  - done.
  - intros s. simpl. naive_solver.
Qed.
Lemma bool_at v off : (off + 1 <= length v)%nat -> reads_at d_bool v off 1 (fun b => field v off 1 (flag_number b)).
Proof.
  intros Hl. unfold d_bool. eapply at_impl.
  - eapply (bind_at _ _ v off 1 0); [apply (uint_at v off 1); lia|]. intros t Ht. instantiate (1 := fun t b => t = flag_number b).
    destruct (N.eqb_spec t 0) as [->|]; [|destruct (N.eqb_spec t 1) as [->|]].
    1-2: eapply at_impl; [apply ret_at|done|]; intros []; simpl; naive_solver.
    eapply at_impl; [apply fail_at|done|]. intros []; simpl; naive_solver.
  - done.
  - intros s. simpl. naive_solver.
Qed.
Lemma rep_at v off k n : (off + k * n <= length v)%nat -> reads_at (d_rep (d_uint n) k) v off (k * n) (fun l => length l = k /\ forall i p, l !! i = Some p -> field v (off + n * i) n p).
Proof.
  revert off. induction k as [|k IH]; intros off Hl; simpl.
  - eapply at_impl; [apply ret_at|done|]. intros l. split; [intros ->; by split|]. intros [H _]. by destruct l.
  - eapply at_impl.
    + eapply bind_at; [apply (uint_at v off n); lia|]. intros x Hx. eapply (bind_at _ _ v (off + n) (k * n) 0); [apply IH; lia|]. intros l Hl'. apply ret_at.
    + lia.
    + intros l. split.
      * intros (x & Hx & l' & [Hlen Hl'] & ->). split; [simpl; by rewrite Hlen|]. intros [|i] p; simpl.
        -- intros [= <-]. by rewrite Nat.mul_0_r, Nat.add_0_r.
        -- intros Hp. specialize (Hl' i p Hp). replace (off + n * S i)%nat with (off + n + n * i)%nat by lia. done.
      * intros [Hlen Hf]. destruct l as [|x l]; [done|]. exists x. split; [specialize (Hf 0%nat x eq_refl); by rewrite Nat.mul_0_r, Nat.add_0_r in Hf|].
        exists l. split; [|done]. split; [by injection Hlen|]. intros i p Hp. specialize (Hf (S i) p Hp). by replace (off + n + n * i)%nat with (off + n * S i)%nat by lia.
Qed.
Lemma unpack_at {A} k (d : dec A) v P a : (length v = k -> reads_at d v 0 k P) -> unpack_unchecked k d v = Some a <-> length v = k /\ P a.
Proof.
  intros Hd. unfold unpack_unchecked. destruct (Nat.eqb_spec (length v) k) as [Hl|Hl]; [|split; [done|by intros [? _]]]. specialize (Hd Hl). split.
  - intros H. split; [done|]. destruct (d v) as [[x r]|] eqn:E; [|done]. injection H as <-. rewrite <- (drop_0 v) in E. by apply Hd in E as [? _].
  - intros [_ Ha]. assert (d (drop 0 v) = Some (a, drop (0 + k) v)) as H by (apply Hd; done). rewrite drop_0 in H. by rewrite H.
Qed.

(** ** C41: exactly the layouts are accepted *)
Theorem C41_token_layout v r : unpack_account v = Some r <-> token_layout v r.
Proof.
  unfold unpack_account, token_layout. apply (unpack_at _ _ v (token_fields v)). intros Hl. unfold d_spl_account. eapply at_impl.
  - eapply bind_at; [apply (uint_at v 0 32); lia|]. intros m _. eapply bind_at; [apply uint_at; lia|]. intros o _. eapply bind_at; [apply uint_at; lia|]. intros n _.
    eapply bind_at; [apply copt_at; lia|]. intros d _. eapply bind_at; [apply state_at; lia|]. intros s _. eapply bind_at; [apply copt_at; lia|]. intros nt _.
    eapply bind_at; [apply uint_at; lia|]. intros da _. eapply bind_at; [apply copt_at; lia|]. intros c _. apply ret_at.
  - done.
  - intros a. simpl. split.
    + intros (m & Hm & o & Ho & n & Hn & d & Hd & s & Hs & nt & Hnt & da & Hda & c & Hc & ->). simpl. split_and!; done.
    + intros (Hm & Ho & Hn & Hd & Hs & Hnt & Hda & Hc). do 8 (eexists; split; [eassumption|]). by destruct a.
Qed.
Print Assumptions C41_token_layout.
Theorem C41_mint_layout v r : unpack_mint v = Some r <-> mint_layout v r.
Proof.
  unfold unpack_mint, mint_layout. apply (unpack_at _ _ v (mint_fields v)). intros Hl. unfold d_spl_mint. eapply at_impl.
  - eapply bind_at; [apply (copt_at v 0 32); lia|]. intros m _. eapply bind_at; [apply uint_at; lia|]. intros o _. eapply bind_at; [apply uint_at; lia|]. intros n _.
    eapply bind_at; [apply bool_at; lia|]. intros s _. eapply bind_at; [apply copt_at; lia|]. intros c _. apply ret_at.
  - done.
  - intros a. simpl. split.
    + intros (m & Hm & o & Ho & n & Hn & s & Hs & c & Hc & ->). simpl. split_and!; done.
    + intros (Hm & Ho & Hn & Hs & Hc). do 5 (eexists; split; [eassumption|]). by destruct a.
Qed.
Print Assumptions C41_mint_layout.
Theorem C41_multisig_layout v r : unpack_multisig v = Some r <-> multisig_layout v r.
Proof.
  unfold unpack_multisig, multisig_layout. apply (unpack_at _ _ v (multisig_fields v)). intros Hl. unfold d_spl_multisig. eapply at_impl.
  - eapply bind_at; [apply (uint_at v 0 1); lia|]. intros m _. eapply bind_at; [apply uint_at; lia|]. intros n _. eapply bind_at; [apply bool_at; lia|]. intros i _.
    eapply bind_at; [apply (rep_at v _ max_signers 32); unfold max_signers; lia|]. intros l _. apply ret_at.
  - done.
  - intros a. simpl. split.
    + intros (m & Hm & n & Hn & i & Hi & l & [Hlen Hf] & ->). simpl. split_and!; try done.
    + intros (Hm & Hn & Hi & Hlen & Hf). do 3 (eexists; split; [eassumption|]). exists (ms_signers a). split; [done|by destruct a].
Qed.
Print Assumptions C41_multisig_layout.
(** A live account of one of the two programs is accepted exactly if its data has one of the layouts. *)
Theorem C41_accepted_exactly E a p v ix ctr : live_with E a p v ->
  account_type E a ix ctr <> Done None <-> (exists r, mint_layout v r) \/ (exists r, token_layout v r) \/ (exists r, multisig_layout v r).
Proof.
  intros Hl. rewrite (C41_accepted_iff E a p v ix ctr Hl). unfold is_Some.
  setoid_rewrite C41_token_layout. setoid_rewrite C41_mint_layout. by setoid_rewrite C41_multisig_layout.
Qed.
Print Assumptions C41_accepted_exactly.
(** The two programs, by the text of their keys: accounts of any other owner, and accounts without lamports, are treated as deleted. *)
Theorem C41_other_programs_deleted E a p ix ctr : d_lamports a = 0 \/
  (forall s, s = txt "TokenkegQfeZyiNwAJbNbGKPFXCWuBvf9Ss623VQ5DA" \/ s = txt "TokenzQdBNbLqP5VEhdkAS6EPFLC1PHnBqCXEpPxuEb" -> pk_parse s <> Some (d_owner a)) ->
  account_type E a ix ctr = Done (Some (p, ix, ctr)) <-> p = TPDeleted (d_pubkey a).
Proof.
  intros H. unfold account_type. assert ((d_lamports a =? 0) || negb (d_owner a =? spl_token_id) && negb (d_owner a =? spl_2022_id) = true) as ->; [|split; [by intros [= <-]|by intros ->]].
  destruct H as [->|H]; [done|]. apply orb_true_iff. right. apply andb_true_iff. split; apply negb_true_iff, N.eqb_neq; intros Ho.
  - apply (H _ (or_introl eq_refl)). rewrite Ho. by vm_compute.
  - apply (H _ (or_intror eq_refl)). rewrite Ho. by vm_compute.
Qed.
Print Assumptions C41_other_programs_deleted.
Theorem C41_program_keys : pk_parse (txt "TokenkegQfeZyiNwAJbNbGKPFXCWuBvf9Ss623VQ5DA") = Some (program_pk TokenP) /\
  pk_parse (txt "TokenzQdBNbLqP5VEhdkAS6EPFLC1PHnBqCXEpPxuEb") = Some (program_pk Token2022P).
Proof. by vm_compute. Qed.
Print Assumptions C41_program_keys.
(** A frozen token account with a delegate and stale bytes where a close authority was; a mint; a multisig account; and three near misses. *)
Definition lay_token : bytes := le 32 9 ++ le 32 8 ++ le 8 1000 ++ le 4 1 ++ le 32 7 ++ le 1 2 ++ le 4 0 ++ le 8 5 ++ le 8 30 ++ le 4 0 ++ le 32 77.
Example C41_example_layouts : token_layout lay_token (SplAccount 9 8 1000 (Some 7) Frozen None 30 None) /\
  mint_layout (le 4 0 ++ le 32 0 ++ le 8 5 ++ le 1 6 ++ le 1 1 ++ le 4 1 ++ le 32 3) (SplMint None 5 6 true (Some 3)) /\
  multisig_layout (le 1 2 ++ le 1 3 ++ le 1 1 ++ concat (map (le 32) [4; 5; 6; 0; 0; 0; 0; 0; 0; 0; 0])) (SplMultisig 2 3 true [4; 5; 6; 0; 0; 0; 0; 0; 0; 0; 0]).
Proof. split; [apply C41_token_layout; by vm_compute|]. split; [apply C41_mint_layout; by vm_compute|]. apply C41_multisig_layout; by vm_compute. Qed.
Example C41_example_no_layout : Forall (fun v => ~ exists r, token_layout v r)
  [<[108%nat := n2b 3]> lay_token; <[73%nat := n2b 1]> lay_token; lay_token ++ [n2b 0]].
Proof. repeat (apply Forall_cons; split; [setoid_rewrite <- C41_token_layout; intros [r H]; vm_compute in H; done|]). constructor. Qed.
Example C41_example_other : pk_parse (txt "TokenkegQfeZyiNwAJbNbGKPFXCWuBvf9Ss623VQ5DA") <> Some 7 /\ pk_parse (txt "TokenzQdBNbLqP5VEhdkAS6EPFLC1PHnBqCXEpPxuEb") <> Some 7.
Proof. by vm_compute. Qed.
