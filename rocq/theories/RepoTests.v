(** The unit tests of the repository, run on the model.  Written by tools/gen_repo_tests.py from the Rust sources.
    These are tests of the transcription, not proofs of properties.  Each call of the code under test is a call of the
    model function; random values are fixed; [assert_eq!] on accounts is [PartialEq for AccountData] (account_data.rs
    143-149) and on lists of accounts is up to order (the order of query answers is not modelled, see StoreModel.v).
    A test evaluates to [Done 0], to the number of its first failing assertion, or to [Panic].
    Not translated: [fuzzy_test_token_account_serialization] (account_types.rs 296-343; for all accounts: C38). *)
From Coq Require Import String.
From Verif Require Import Base DataModel FilterModel ByCommitModel BincodeModel StoreModel TokenModel SplModel TokenUtilsModel
  TokenPendModel TokenStoreModel Lz4Model Base58Model JsonModel FilterJsonModel.

(** Helpers of the translation: text, comparisons, [unwrap] of a [Result].  Not in the code. *)
Definition txt (s : string) : bytes := String.list_byte_of_string s.
Definition bs (l : list N) : bytes := n2b <$> l.
(** Fixed data in place of random data. *)
Definition rdata (seed n : N) : bytes := (fun i => n2b ((seed * 37 + N.of_nat i * 11 + 5) mod 256)) <$> seq 0 (N.to_nat n).
(** The libraries: base 58 of Base58Model.v; the standard base 64; LZ4 blocks of literals with the size in front. *)
Definition b64_value (c : byte) : option N := let n := b2n c in
  if (65 <=? n) && (n <=? 90) then Some (n - 65) else if (97 <=? n) && (n <=? 122) then Some (n - 71)
  else if (48 <=? n) && (n <=? 57) then Some (n + 4) else if n =? 43 then Some 62 else if n =? 47 then Some 63 else None.
Fixpoint b64_decode (s : bytes) : option bytes :=
  match s with
  | [] => Some []
  | a :: b :: c :: d :: s' =>
      let eq := n2b 61 in
      x ← b64_value a; y ← b64_value b;
      if decide (c = eq) then (if decide (d = eq /\ s' = []) then Some [n2b (x * 4 + y / 16)] else None)
      else z ← b64_value c;
           if decide (d = eq) then (if decide (s' = []) then Some [n2b (x * 4 + y / 16); n2b (y mod 16 * 16 + z / 4)] else None)
           else w ← b64_value d; r ← b64_decode s'; Some (n2b (x * 4 + y / 16) :: n2b (y mod 16 * 16 + z / 4) :: n2b (z mod 4 * 64 + w) :: r)
  | _ => None
  end.
Definition ET : ext := Ext b58_decode b64_decode (fun _ d => Some (le 4 (lenN d) ++ lit_block d)) (lz4_decompress lz4_sample) (fun _ d => Some d) Some.
Definition filt_of (f : fstore) : filt := Filt (fun a => match satisfies ET f a with Done b => b | Panic => false end) (contains_filter f).
Definition unwrap_r {A} (r : result A) : res A := match r with ROk a => Done a | RErr _ => Panic end.
Definition is_ok {A} (r : result A) : bool := match r with ROk _ => true | RErr _ => false end.
Definition is_err {A} (r : result A) : bool := negb (is_ok r).
Fixpoint take_one (a : acct) (l : list acct) : option (list acct) :=
  match l with [] => None | b :: l' => if acct_eqb a b then Some l' else (cons b) <$> take_one a l' end.
Fixpoint eq_l (l m : list acct) : bool :=
  match l with
  | [] => match m with [] => true | _ => false end
  | a :: l' => match take_one a m with Some m' => eq_l l' m' | None => false end
  end.
Definition eq_oa (a b : option acct) : bool := match a, b with Some a, Some b => acct_eqb a b | None, None => true | _, _ => false end.
Definition eq_prom (a b : option (acct * option acct)) : bool :=
  match a, b with Some (a, p), Some (b, q) => acct_eqb a b && eq_oa p q | None, None => true | _, _ => false end.
#[local] Instance load_error_dec : EqDecision load_error.
Proof. solve_decision. Defined.
#[local] Instance tstate_dec : EqDecision tstate.
Proof. solve_decision. Defined.
#[local] Instance spl_account_dec : EqDecision spl_account.
Proof. solve_decision. Defined.
#[local] Instance spl_mint_dec : EqDecision spl_mint.
Proof. solve_decision. Defined.
Definition eq_r {A} (f : A -> A -> bool) (a b : result A) : bool :=
  match a, b with ROk a, ROk b => f a b | RErr e, RErr e' => bool_decide (e = e') | _, _ => false end.
Definition eq_f (a b : afilter) : bool := bool_decide (a = b).
Definition eq_fs (a b : list afilter) : bool := bool_decide (a = b).
Definition eq_tp (a b : spl_account) : bool := bool_decide (a = b).
Definition eq_mp (a b : spl_mint) : bool := bool_decide (a = b).
Definition eq_keys (l m : list N) : bool := bool_decide ((list_to_set l : gset N) = list_to_set m).
(** The monad written out (no type classes: the tests are long). *)
Definition rbind {A B} (e : res A) (k : A -> res B) : res B := match e with Done x => k x | Panic => Panic end.
Notation "x <- e ;; k" := (rbind e (fun x => k)) (at level 100, e at next level, right associativity, only parsing).
(** tests/utils.rs 124-145 and 189-206. *)
Definition token_params (a : acct) : res spl_account := d ← data_bytes ET (d_data a); unwrap (unpack_account d).
Definition mint_params (a : acct) : res spl_mint := d ← data_bytes ET (d_data a); unwrap (unpack_mint d).

(** account_storage/src/account_data_by_commitment.rs 312-355: 8 assertions. *)
Definition test_promote_slot_commitment : res N :=
  let r1 := bc_empty in
  let r2 := Acct 1001 (Account 100 (DRaw (replicate 32 (n2b 0))) 1002 false 0) 1 1 in
  let r1 := (bc_update r1 r2 Processed).1 in
  let r3 := (bc_promote r1 1 Confirmed).2 in
  let r1 := (bc_promote r1 1 Confirmed).1 in
  if negb (eq_prom r3 (Some (r2, None))) then Done 1 else
  if negb (eq_oa (bc_conf r1) (Some r2)) then Done 2 else
  let r4 := (bc_promote r1 1 Finalized).2 in
  let r1 := (bc_promote r1 1 Finalized).1 in
  if negb (eq_prom r4 (Some (r2, None))) then Done 3 else
  if negb (eq_oa (bc_conf r1) (Some r2)) then Done 4 else
  if negb (eq_oa (bc_fin r1) (Some r2)) then Done 5 else
  let r5 := Acct 1003 (Account 100 (DRaw (replicate 32 (n2b 0))) 1004 false 0) 2 2 in
  let r1 := (bc_update r1 r5 Processed).1 in
  let r6 := (bc_promote r1 2 Finalized).2 in
  let r1 := (bc_promote r1 2 Finalized).1 in
  if negb (eq_prom r6 (Some (r5, (Some r2)))) then Done 6 else
  if negb (eq_oa (bc_conf r1) (Some r5)) then Done 7 else
  if negb (eq_oa (bc_fin r1) (Some r5)) then Done 8 else
  Done 0.
Example test_promote_slot_commitment_passes : test_promote_slot_commitment = Done 0.
Proof. vm_compute. reflexivity. Qed.

(** account_storage/src/account_data_by_commitment.rs 358-380: 3 assertions. *)
Definition test_update_and_get_account_data : res N :=
  let r1 := bc_empty in
  let r2 := Acct 1001 (Account 100 (DRaw (replicate 32 (n2b 0))) 1002 false 0) 1 1 in
  let r1 := (bc_update r1 r2 Processed).1 in
  let r3 := bc_get r1 Processed in
  if negb (eq_oa r3 (Some r2)) then Done 1 else
  let r1 := (bc_update r1 r2 Confirmed).1 in
  let r4 := bc_get r1 Confirmed in
  if negb (eq_oa r4 (Some r2)) then Done 2 else
  let r1 := (bc_update r1 r2 Finalized).1 in
  let r5 := bc_get r1 Finalized in
  if negb (eq_oa r5 (Some r2)) then Done 3 else
  Done 0.
Example test_update_and_get_account_data_passes : test_update_and_get_account_data = Done 0.
Proof. vm_compute. reflexivity. Qed.

(** account_storage/src/account_data_by_commitment.rs 383-403: 3 assertions. *)
Definition test_update_finalized_account : res N :=
  let r1 := bc_empty in
  let r2 := Acct 1001 (Account 100 (DRaw (replicate 32 (n2b 0))) 1002 false 0) 1 10 in
  let r1 := (bc_update r1 r2 Finalized).1 in
  let r3 := bc_get r1 Processed in
  if negb (eq_oa r3 (Some r2)) then Done 1 else
  let r4 := bc_get r1 Confirmed in
  if negb (eq_oa r4 (Some r2)) then Done 2 else
  let r5 := bc_get r1 Finalized in
  if negb (eq_oa r5 (Some r2)) then Done 3 else
  Done 0.
Example test_update_finalized_account_passes : test_update_finalized_account = Done 0.
Proof. vm_compute. reflexivity. Qed.

(** account_storage/src/account_data_by_commitment.rs 406-426: 3 assertions. *)
Definition test_update_confirmed_account : res N :=
  let r1 := bc_empty in
  let r2 := Acct 1001 (Account 100 (DRaw (replicate 32 (n2b 0))) 1002 false 0) 1 10 in
  let r1 := (bc_update r1 r2 Confirmed).1 in
  let r3 := bc_get r1 Processed in
  if negb (eq_oa r3 (Some r2)) then Done 1 else
  let r4 := bc_get r1 Confirmed in
  if negb (eq_oa r4 (Some r2)) then Done 2 else
  let r5 := bc_get r1 Finalized in
  if negb (eq_oa r5 None) then Done 3 else
  Done 0.
Example test_update_confirmed_account_passes : test_update_confirmed_account = Done 0.
Proof. vm_compute. reflexivity. Qed.

(** account_storage/src/account_data_by_commitment.rs 429-579: 28 assertions. *)
Definition test_update_processed_account : res N :=
  let r1 := bc_empty in
  let r2 := Acct 1001 (Account 100 (DRaw (replicate 32 (n2b 0))) 1002 false 0) 5 10 in
  let r1 := (bc_update r1 r2 Processed).1 in
  let r3 := bc_get r1 Processed in
  if negb (eq_oa r3 (Some r2)) then Done 1 else
  let r4 := bc_get r1 Confirmed in
  if negb (eq_oa r4 None) then Done 2 else
  let r5 := bc_get r1 Finalized in
  if negb (eq_oa r5 None) then Done 3 else
  let r6 := Acct 1003 (Account 100 (DRaw (replicate 32 (n2b 0))) 1004 false 0) 5 9 in
  let r1 := (bc_update r1 r6 Processed).1 in
  let r7 := bc_get r1 Processed in
  if negb (eq_oa r7 (Some r2)) then Done 4 else
  let r8 := bc_get r1 Confirmed in
  if negb (eq_oa r8 None) then Done 5 else
  let r9 := bc_get r1 Finalized in
  if negb (eq_oa r9 None) then Done 6 else
  let r10 := Acct 1005 (Account 100 (DRaw (replicate 32 (n2b 0))) 1006 false 0) 5 11 in
  let r1 := (bc_update r1 r10 Processed).1 in
  let r11 := bc_get r1 Processed in
  if negb (eq_oa r11 (Some r10)) then Done 7 else
  let r12 := bc_get r1 Confirmed in
  if negb (eq_oa r12 None) then Done 8 else
  let r13 := bc_get r1 Finalized in
  if negb (eq_oa r13 None) then Done 9 else
  let r14 := Acct 1007 (Account 100 (DRaw (replicate 32 (n2b 0))) 1008 false 0) 4 8 in
  let r1 := (bc_update r1 r14 Processed).1 in
  let r15 := bc_get r1 Processed in
  if negb (eq_oa r15 (Some r10)) then Done 10 else
  let r16 := bc_get r1 Confirmed in
  if negb (eq_oa r16 None) then Done 11 else
  let r17 := bc_get r1 Finalized in
  if negb (eq_oa r17 None) then Done 12 else
  let r18 := (bc_promote r1 3 Confirmed).2 in
  let r1 := (bc_promote r1 3 Confirmed).1 in
  if negb (eq_prom r18 None) then Done 13 else
  let r19 := bc_get r1 Processed in
  if negb (eq_oa r19 (Some r10)) then Done 14 else
  let r20 := bc_get r1 Confirmed in
  if negb (eq_oa r20 None) then Done 15 else
  let r21 := bc_get r1 Finalized in
  if negb (eq_oa r21 None) then Done 16 else
  let r22 := (bc_promote r1 4 Confirmed).2 in
  let r1 := (bc_promote r1 4 Confirmed).1 in
  if negb (eq_prom r22 (Some (r14, None))) then Done 17 else
  let r23 := bc_get r1 Processed in
  if negb (eq_oa r23 (Some r10)) then Done 18 else
  let r24 := bc_get r1 Confirmed in
  if negb (eq_oa r24 (Some r14)) then Done 19 else
  let r25 := bc_get r1 Finalized in
  if negb (eq_oa r25 None) then Done 20 else
  let r26 := (bc_promote r1 5 Confirmed).2 in
  let r1 := (bc_promote r1 5 Confirmed).1 in
  if negb (eq_prom r26 (Some (r10, (Some r14)))) then Done 21 else
  let r27 := bc_get r1 Processed in
  if negb (eq_oa r27 (Some r10)) then Done 22 else
  let r28 := bc_get r1 Confirmed in
  if negb (eq_oa r28 (Some r10)) then Done 23 else
  let r29 := bc_get r1 Finalized in
  if negb (eq_oa r29 None) then Done 24 else
  let r30 := (bc_promote r1 5 Finalized).2 in
  let r1 := (bc_promote r1 5 Finalized).1 in
  if negb (eq_prom r30 (Some (r10, None))) then Done 25 else
  let r31 := bc_get r1 Processed in
  if negb (eq_oa r31 (Some r10)) then Done 26 else
  let r32 := bc_get r1 Confirmed in
  if negb (eq_oa r32 (Some r10)) then Done 27 else
  let r33 := bc_get r1 Finalized in
  if negb (eq_oa r33 (Some r10)) then Done 28 else
  Done 0.
Example test_update_processed_account_passes : test_update_processed_account = Done 0.
Proof. vm_compute. reflexivity. Qed.

(** account_storage/src/account_data_by_commitment.rs 582-604: 3 assertions. *)
Definition test_update_and_get_account_data_old_slot_and_write_version : res N :=
  let r1 := bc_empty in
  let r2 := Acct 1001 (Account 100 (DRaw (replicate 32 (n2b 0))) 1002 false 0) 1 10 in
  let r1 := (bc_update r1 r2 Processed).1 in
  let r3 := bc_get r1 Processed in
  if negb (eq_oa r3 (Some r2)) then Done 1 else
  let r1 := (bc_update r1 r2 Confirmed).1 in
  let r4 := bc_get r1 Confirmed in
  if negb (eq_oa r4 (Some r2)) then Done 2 else
  let r1 := (bc_update r1 r2 Finalized).1 in
  let r5 := bc_get r1 Finalized in
  if negb (eq_oa r5 (Some r2)) then Done 3 else
  Done 0.
Example test_update_and_get_account_data_old_slot_and_write_version_passes : test_update_and_get_account_data_old_slot_and_write_version = Done 0.
Proof. vm_compute. reflexivity. Qed.

(** account_storage/src/account_data_by_commitment.rs 607-624: 2 assertions. *)
Definition test_get_account_data_filtered : res N :=
  let r1 := bc_empty in
  let r2 := Acct 1001 (Account 100 (DRaw (replicate 32 (n2b 0))) 1002 false 0) 1 1 in
  let r1 := (bc_update r1 r2 Processed).1 in
  r3 <- bc_get_filtered ET r1 Processed [(Datasize 32)] ;;
  if negb (eq_oa r3 (Some r2)) then Done 1 else
  r4 <- bc_get_filtered ET r1 Processed [(Datasize 64)] ;;
  if negb (eq_oa r4 None) then Done 2 else
  Done 0.
Example test_get_account_data_filtered_passes : test_get_account_data_filtered = Done 0.
Proof. vm_compute. reflexivity. Qed.

(** account_storage/src/account_data_by_commitment.rs 627-643: 3 assertions. *)
Definition test_initialize : res N :=
  let r1 := Acct 1001 (Account 100 (DRaw (replicate 32 (n2b 0))) 1002 false 0) 1 1 in
  let r2 := bc_initialize r1 in
  let r3 := bc_get r2 Processed in
  if negb (eq_oa r3 (Some r1)) then Done 1 else
  let r4 := bc_get r2 Confirmed in
  if negb (eq_oa r4 (Some r1)) then Done 2 else
  let r5 := bc_get r2 Finalized in
  if negb (eq_oa r5 (Some r1)) then Done 3 else
  Done 0.
Example test_initialize_passes : test_initialize = Done 0.
Proof. vm_compute. reflexivity. Qed.

(** account_storage/src/account_data_by_commitment.rs 646-666: 3 assertions. *)
Definition test_delete : res N :=
  let r1 := bc_empty in
  let r2 := Acct 1001 (Account 100 (DRaw (replicate 32 (n2b 0))) 1002 false 0) 1 1 in
  let r1 := (bc_update r1 r2 Processed).1 in
  let r1 := bc_delete r1 in
  let r3 := bc_get r1 Processed in
  if negb (eq_oa r3 None) then Done 1 else
  let r4 := bc_get r1 Confirmed in
  if negb (eq_oa r4 None) then Done 2 else
  let r5 := bc_get r1 Finalized in
  if negb (eq_oa r5 None) then Done 3 else
  Done 0.
Example test_delete_passes : test_delete = Done 0.
Proof. vm_compute. reflexivity. Qed.

(** account_storage/src/inmemory_account_store.rs 574-690: 18 assertions. *)
Definition test_account_store : res N :=
  r1 <- add_filters ET fstore_empty [(AFilter [] (Some 1001) None)] ;;
  let r2 := filt_of r1 in
  let r3 := store_empty in
  r4 <- from_solana ET (SolAccount 101 (rdata 1 21) 1001 false 0) CNone ;;
  let r5 := Acct 1002 r4 0 0 in
  r3 <- init_account r2 r3 r5 ;;
  r6 <- from_solana ET (SolAccount 102 (rdata 2 22) 1001 false 0) CNone ;;
  let r7 := Acct 1003 r6 0 0 in
  r3 <- init_account r2 r3 r7 ;;
  r8 <- get_account r3 1002 Processed ;;
  if negb (eq_r eq_oa r8 (ROk (Some r5))) then Done 1 else
  r9 <- get_account r3 1002 Confirmed ;;
  if negb (eq_r eq_oa r9 (ROk (Some r5))) then Done 2 else
  r10 <- get_account r3 1002 Finalized ;;
  if negb (eq_r eq_oa r10 (ROk (Some r5))) then Done 3 else
  r11 <- get_account r3 1003 Processed ;;
  if negb (eq_r eq_oa r11 (ROk (Some r7))) then Done 4 else
  r12 <- get_account r3 1003 Confirmed ;;
  if negb (eq_r eq_oa r12 (ROk (Some r7))) then Done 5 else
  r13 <- get_account r3 1003 Finalized ;;
  if negb (eq_r eq_oa r13 (ROk (Some r7))) then Done 6 else
  r14 <- from_solana ET (SolAccount 103 (rdata 3 23) 1001 false 0) CNone ;;
  let r15 := Acct 1002 r14 1 0 in
  r16 <- from_solana ET (SolAccount 104 (rdata 4 24) 1001 false 0) CNone ;;
  let r17 := Acct 1002 r16 2 0 in
  r18 <- from_solana ET (SolAccount 105 (rdata 5 25) 1001 false 0) CNone ;;
  let r19 := Acct 1002 r18 3 0 in
  r20 <- from_solana ET (SolAccount 106 (rdata 6 26) 1001 false 0) CNone ;;
  let r21 := Acct 1002 r20 4 0 in
  r22 <- update_account r2 r3 r15 Processed ;;
  let r3 := r22.1 in
  r23 <- update_account r2 r3 r17 Processed ;;
  let r3 := r23.1 in
  r24 <- update_account r2 r3 r19 Processed ;;
  let r3 := r24.1 in
  r25 <- update_account r2 r3 r21 Processed ;;
  let r3 := r25.1 in
  r26 <- get_account r3 1002 Processed ;;
  if negb (eq_r eq_oa r26 (ROk (Some r21))) then Done 7 else
  r27 <- get_account r3 1002 Confirmed ;;
  if negb (eq_r eq_oa r27 (ROk (Some r5))) then Done 8 else
  r28 <- get_account r3 1002 Finalized ;;
  if negb (eq_r eq_oa r28 (ROk (Some r5))) then Done 9 else
  r29 <- process_slot r2 r3 (SlotInfo 1 0 0) Confirmed ;;
  let r3 := r29.1 in
  r30 <- get_account r3 1002 Processed ;;
  if negb (eq_r eq_oa r30 (ROk (Some r21))) then Done 10 else
  r31 <- get_account r3 1002 Confirmed ;;
  if negb (eq_r eq_oa r31 (ROk (Some r15))) then Done 11 else
  r32 <- get_account r3 1002 Finalized ;;
  if negb (eq_r eq_oa r32 (ROk (Some r5))) then Done 12 else
  r33 <- process_slot r2 r3 (SlotInfo 2 1 0) Confirmed ;;
  let r3 := r33.1 in
  r34 <- get_account r3 1002 Processed ;;
  if negb (eq_r eq_oa r34 (ROk (Some r21))) then Done 13 else
  r35 <- get_account r3 1002 Confirmed ;;
  if negb (eq_r eq_oa r35 (ROk (Some r17))) then Done 14 else
  r36 <- get_account r3 1002 Finalized ;;
  if negb (eq_r eq_oa r36 (ROk (Some r5))) then Done 15 else
  r37 <- process_slot r2 r3 (SlotInfo 1 0 0) Finalized ;;
  let r3 := r37.1 in
  r38 <- get_account r3 1002 Processed ;;
  if negb (eq_r eq_oa r38 (ROk (Some r21))) then Done 16 else
  r39 <- get_account r3 1002 Confirmed ;;
  if negb (eq_r eq_oa r39 (ROk (Some r17))) then Done 17 else
  r40 <- get_account r3 1002 Finalized ;;
  if negb (eq_r eq_oa r40 (ROk (Some r15))) then Done 18 else
  Done 0.
Example test_account_store_passes : test_account_store = Done 0.
Proof. vm_compute. reflexivity. Qed.

(** account_storage/src/inmemory_account_store.rs 693-789: 4 assertions. *)
Definition test_account_store_if_finalized_clears_old_processed_slots : res N :=
  r1 <- add_filters ET fstore_empty [(AFilter [] (Some 1001) None)] ;;
  let r2 := filt_of r1 in
  let r3 := store_empty in
  r4 <- from_solana ET (SolAccount 101 (rdata 1 21) 1001 false 0) CNone ;;
  let r5 := Acct 1002 r4 0 0 in
  r3 <- init_account r2 r3 r5 ;;
  r6 <- from_solana ET (SolAccount 102 (rdata 2 22) 1001 false 0) CNone ;;
  let r7 := Acct 1002 r6 1 0 in
  r8 <- update_account r2 r3 r7 Processed ;;
  let r3 := r8.1 in
  r9 <- from_solana ET (SolAccount 103 (rdata 3 23) 1001 false 0) CNone ;;
  let r10 := Acct 1002 r9 1 0 in
  r11 <- update_account r2 r3 r10 Processed ;;
  let r3 := r11.1 in
  r12 <- from_solana ET (SolAccount 104 (rdata 4 24) 1001 false 0) CNone ;;
  let r13 := Acct 1002 r12 2 0 in
  r14 <- update_account r2 r3 r13 Processed ;;
  let r3 := r14.1 in
  r15 <- from_solana ET (SolAccount 105 (rdata 5 25) 1001 false 0) CNone ;;
  let r16 := Acct 1002 r15 3 0 in
  r17 <- update_account r2 r3 r16 Processed ;;
  let r3 := r17.1 in
  r18 <- from_solana ET (SolAccount 106 (rdata 6 26) 1001 false 0) CNone ;;
  let r19 := Acct 1002 r18 4 0 in
  r20 <- update_account r2 r3 r19 Processed ;;
  let r3 := r20.1 in
  r21 <- from_solana ET (SolAccount 107 (rdata 7 20) 1001 false 0) CNone ;;
  let r22 := Acct 1002 r21 5 0 in
  r23 <- update_account r2 r3 r22 Processed ;;
  let r3 := r23.1 in
  r24 <- from_solana ET (SolAccount 108 (rdata 8 21) 1001 false 0) CNone ;;
  let r25 := Acct 1002 r24 6 0 in
  r26 <- update_account r2 r3 r25 Processed ;;
  let r3 := r26.1 in
  r27 <- from_solana ET (SolAccount 109 (rdata 9 22) 1001 false 0) CNone ;;
  let r28 := Acct 1002 r27 7 0 in
  r29 <- update_account r2 r3 r28 Processed ;;
  let r3 := r29.1 in
  r30 <- from_solana ET (SolAccount 110 (rdata 10 23) 1001 false 0) CNone ;;
  let r31 := Acct 1002 r30 8 0 in
  r32 <- update_account r2 r3 r31 Processed ;;
  let r3 := r32.1 in
  r33 <- from_solana ET (SolAccount 111 (rdata 11 24) 1001 false 0) CNone ;;
  let r34 := Acct 1002 r33 9 0 in
  r35 <- update_account r2 r3 r34 Processed ;;
  let r3 := r35.1 in
  r36 <- from_solana ET (SolAccount 112 (rdata 12 25) 1001 false 0) CNone ;;
  let r37 := Acct 1002 r36 10 0 in
  r38 <- update_account r2 r3 r37 Processed ;;
  let r3 := r38.1 in
  r39 <- from_solana ET (SolAccount 113 (rdata 13 26) 1001 false 0) CNone ;;
  let r40 := Acct 1002 r39 11 0 in
  r41 <- update_account r2 r3 r40 Processed ;;
  let r3 := r41.1 in
  r42 <- unwrap (st_index r3 !! (1002 : pubkey)) ;;
  r43 <- unwrap (nth_error (st_accounts r3) r42) ;;
  if negb ((lenN (bc_proc r43)) =? 12) then Done 1 else
  r44 <- process_slot r2 r3 (SlotInfo 11 10 0) Finalized ;;
  let r3 := r44.1 in
  r45 <- unwrap (nth_error (st_accounts r3) r42) ;;
  if negb ((lenN (bc_proc r45)) =? 1) then Done 2 else
  r46 <- get_account r3 1002 Finalized ;;
  if negb (eq_r eq_oa r46 (ROk (Some r40))) then Done 3 else
  r47 <- process_slot r2 r3 (SlotInfo 8 7 0) Finalized ;;
  let r3 := r47.1 in
  r48 <- get_account r3 1002 Finalized ;;
  if negb (eq_r eq_oa r48 (ROk (Some r40))) then Done 4 else
  Done 0.
Example test_account_store_if_finalized_clears_old_processed_slots_passes : test_account_store_if_finalized_clears_old_processed_slots = Done 0.
Proof. vm_compute. reflexivity. Qed.

(** account_storage/src/inmemory_account_store.rs 792-933: 28 assertions. *)
Definition test_get_program_account : res N :=
  r1 <- add_filters ET fstore_empty [(AFilter [] (Some 1001) None); (AFilter [] (Some 1002) None); (AFilter [] (Some 1003) None); (AFilter [] (Some 1004) None)] ;;
  let r2 := filt_of r1 in
  let r3 := store_empty in
  r4 <- from_solana ET (SolAccount 101 (rdata 1 21) 1001 false 0) CNone ;;
  let r5 := Acct 1005 r4 1 0 in
  r6 <- update_account r2 r3 r5 Confirmed ;;
  let r3 := r6.1 in
  r7 <- from_solana ET (SolAccount 102 (rdata 2 22) 1001 false 0) CNone ;;
  let r8 := Acct 1006 r7 1 0 in
  r9 <- update_account r2 r3 r8 Confirmed ;;
  let r3 := r9.1 in
  r10 <- from_solana ET (SolAccount 103 (rdata 3 23) 1001 false 0) CNone ;;
  let r11 := Acct 1007 r10 1 0 in
  r12 <- update_account r2 r3 r11 Confirmed ;;
  let r3 := r12.1 in
  r13 <- from_solana ET (SolAccount 104 (rdata 4 24) 1001 false 0) CNone ;;
  let r14 := Acct 1008 r13 1 0 in
  r15 <- update_account r2 r3 r14 Confirmed ;;
  let r3 := r15.1 in
  r16 <- from_solana ET (SolAccount 105 (rdata 5 25) 1002 false 0) CNone ;;
  let r17 := Acct 1009 r16 1 0 in
  r18 <- update_account r2 r3 r17 Confirmed ;;
  let r3 := r18.1 in
  r19 <- get_program_accounts ET r2 r3 1001 None Processed ;;
  if negb (is_ok r19) then Done 1 else
  r20 <- unwrap_r r19 ;;
  if negb ((lenN r20) =? 4) then Done 2 else
  r21 <- get_program_accounts ET r2 r3 1001 None Confirmed ;;
  if negb (is_ok r21) then Done 3 else
  r22 <- unwrap_r r21 ;;
  if negb ((lenN r22) =? 4) then Done 4 else
  r23 <- get_program_accounts ET r2 r3 1001 None Finalized ;;
  if negb (is_ok r23) then Done 5 else
  r24 <- unwrap_r r23 ;;
  if negb (lenN r24 =? 0) then Done 6 else
  r25 <- get_program_accounts ET r2 r3 1002 None Processed ;;
  if negb (is_ok r25) then Done 7 else
  r26 <- unwrap_r r25 ;;
  if negb ((lenN r26) =? 1) then Done 8 else
  r27 <- get_program_accounts ET r2 r3 1002 None Confirmed ;;
  if negb (is_ok r27) then Done 9 else
  r28 <- unwrap_r r27 ;;
  if negb ((lenN r28) =? 1) then Done 10 else
  r29 <- get_program_accounts ET r2 r3 1002 None Finalized ;;
  if negb (is_ok r29) then Done 11 else
  r30 <- unwrap_r r29 ;;
  if negb (lenN r30 =? 0) then Done 12 else
  r31 <- get_program_accounts ET r2 r3 1010 None Processed ;;
  if negb (is_err r31) then Done 13 else
  r32 <- get_program_accounts ET r2 r3 1011 None Confirmed ;;
  if negb (is_err r32) then Done 14 else
  r33 <- get_program_accounts ET r2 r3 1012 None Finalized ;;
  if negb (is_err r33) then Done 15 else
  r34 <- process_slot r2 r3 (SlotInfo 1 0 0) Finalized ;;
  let r3 := r34.1 in
  r35 <- get_program_accounts ET r2 r3 1001 None Finalized ;;
  if negb (is_ok r35) then Done 16 else
  r36 <- unwrap_r r35 ;;
  if negb ((lenN r36) =? 4) then Done 17 else
  r37 <- get_program_accounts ET r2 r3 1002 None Finalized ;;
  if negb (is_ok r37) then Done 18 else
  r38 <- unwrap_r r37 ;;
  if negb ((lenN r38) =? 1) then Done 19 else
  r39 <- from_solana ET (SolAccount 106 (rdata 6 26) 1003 false 0) CNone ;;
  let r40 := Acct 1013 r39 2 0 in
  r41 <- update_account r2 r3 r40 Finalized ;;
  let r3 := r41.1 in
  r42 <- process_slot r2 r3 (SlotInfo 2 1 0) Finalized ;;
  let r3 := r42.1 in
  r43 <- from_solana ET (SolAccount 107 (rdata 7 20) 1003 false 0) CNone ;;
  let r44 := Acct 1013 r43 3 0 in
  r45 <- update_account r2 r3 r44 Confirmed ;;
  let r3 := r45.1 in
  r46 <- from_solana ET (SolAccount 108 (rdata 8 21) 1004 false 0) CNone ;;
  let r47 := Acct 1013 r46 4 0 in
  r48 <- update_account r2 r3 r47 Processed ;;
  let r3 := r48.1 in
  r49 <- get_program_accounts ET r2 r3 1003 None Finalized ;;
  r50 <- get_program_accounts ET r2 r3 1003 None Confirmed ;;
  r51 <- get_program_accounts ET r2 r3 1003 None Processed ;;
  r52 <- get_program_accounts ET r2 r3 1004 None Processed ;;
  if negb (eq_r eq_l r50 (ROk [r44])) then Done 20 else
  if negb (eq_r eq_l r51 (ROk [])) then Done 21 else
  if negb (eq_r eq_l r52 (ROk [r47])) then Done 22 else
  if negb (eq_r eq_l r49 (ROk [r40])) then Done 23 else
  r53 <- process_slot r2 r3 (SlotInfo 3 2 0) Finalized ;;
  let r3 := r53.1 in
  r54 <- process_slot r2 r3 (SlotInfo 4 3 0) Confirmed ;;
  let r3 := r54.1 in
  r55 <- get_program_accounts ET r2 r3 1003 None Finalized ;;
  r56 <- get_program_accounts ET r2 r3 1003 None Confirmed ;;
  r57 <- get_program_accounts ET r2 r3 1004 None Confirmed ;;
  if negb (eq_r eq_l r55 (ROk [r44])) then Done 24 else
  if negb (eq_r eq_l r56 (ROk [])) then Done 25 else
  if negb (eq_r eq_l r57 (ROk [r47])) then Done 26 else
  r58 <- process_slot r2 r3 (SlotInfo 4 3 0) Finalized ;;
  let r3 := r58.1 in
  r59 <- get_program_accounts ET r2 r3 1003 None Finalized ;;
  r60 <- get_program_accounts ET r2 r3 1004 None Finalized ;;
  if negb (eq_r eq_l r59 (ROk [])) then Done 27 else
  if negb (eq_r eq_l r60 (ROk [r47])) then Done 28 else
  Done 0.
Example test_get_program_account_passes : test_get_program_account = Done 0.
Proof. vm_compute. reflexivity. Qed.

Definition str_0 : bytes := txt "mKOuucTP2uXw+wYRHCcyPUhTXmk=".
Definition str_1 : bytes := txt "JV4hCJtG2Hg9rzz1wo5bNbSaKg1YXs1FgvYXNL6KfjBY24CkorWZ86".
Definition str_2 : bytes := txt "4u34Aw4ZJC86RVBbZnF8h5KdqLM=".
Definition str_3 : bytes := txt "4zaaDmPypnMi3MqUmf3rh1KPvnN4Vw8MmHb6YHPTxenbYUcAnbnyQvp".
(** account_storage/src/inmemory_account_store.rs 936-1154: 8 assertions. *)
Definition test_get_program_account_2 : res N :=
  r1 <- add_filters ET fstore_empty [(AFilter [] (Some 1001) None)] ;;
  let r2 := filt_of r1 in
  let r3 := store_empty in
  r4 <- from_solana ET (SolAccount 106 (rdata 1 100) 1001 false 0) (CLz4 8) ;;
  let r5 := Acct 1002 r4 1 0 in
  r3 <- init_account r2 r3 r5 ;;
  r6 <- from_solana ET (SolAccount 107 (rdata 1 100) 1001 false 0) CNone ;;
  let r7 := Acct 1003 r6 1 0 in
  r3 <- init_account r2 r3 r7 ;;
  r8 <- from_solana ET (SolAccount 108 (rdata 2 200) 1001 false 0) (CLz4 3) ;;
  let r9 := Acct 1004 r8 1 0 in
  r3 <- init_account r2 r3 r9 ;;
  r10 <- from_solana ET (SolAccount 109 (rdata 2 200) 1001 false 0) CNone ;;
  let r11 := Acct 1005 r10 1 0 in
  r3 <- init_account r2 r3 r11 ;;
  r12 <- from_solana ET (SolAccount 110 (rdata 3 300) 1001 false 0) (CLz4 10) ;;
  let r13 := Acct 1006 r12 1 0 in
  r3 <- init_account r2 r3 r13 ;;
  r14 <- from_solana ET (SolAccount 111 (rdata 3 300) 1001 false 0) (CLz4 5) ;;
  let r15 := Acct 1007 r14 1 0 in
  r3 <- init_account r2 r3 r15 ;;
  r16 <- from_solana ET (SolAccount 112 (rdata 4 400) 1001 false 0) (CLz4 4) ;;
  let r17 := Acct 1008 r16 1 0 in
  r3 <- init_account r2 r3 r17 ;;
  r18 <- from_solana ET (SolAccount 113 (rdata 4 400) 1001 false 0) (CLz4 2) ;;
  let r19 := Acct 1009 r18 1 0 in
  r3 <- init_account r2 r3 r19 ;;
  r20 <- from_solana ET (SolAccount 114 (rdata 5 400) 1001 false 0) (CLz4 1) ;;
  let r21 := Acct 1010 r20 1 0 in
  r3 <- init_account r2 r3 r21 ;;
  r22 <- get_program_accounts ET r2 r3 1001 None Finalized ;;
  r23 <- unwrap_r r22 ;;
  if negb (eq_keys (d_pubkey <$> r23) [1002; 1003; 1004; 1005; 1006; 1007; 1008; 1009; 1010]) then Done 1 else
  r24 <- get_program_accounts ET r2 r3 1001 (Some [(Datasize 100)]) Finalized ;;
  r25 <- unwrap_r r24 ;;
  if negb (eq_keys (d_pubkey <$> r25) [1002; 1003]) then Done 2 else
  r26 <- get_program_accounts ET r2 r3 1001 (Some [(MemcmpC (Memcmp 0 (MBytes (take 30 (drop 0 (rdata 1 100))))))]) Finalized ;;
  r27 <- unwrap_r r26 ;;
  if negb (eq_keys (d_pubkey <$> r27) [1002; 1003]) then Done 3 else
  r28 <- get_program_accounts ET r2 r3 1001 (Some [(MemcmpC (Memcmp 10 (MBase64 (str_0))))]) Finalized ;;
  r29 <- unwrap_r r28 ;;
  if negb (eq_keys (d_pubkey <$> r29) [1002; 1003]) then Done 4 else
  r30 <- get_program_accounts ET r2 r3 1001 (Some [(MemcmpC (Memcmp 20 (MBase58 (str_1))))]) Finalized ;;
  r31 <- unwrap_r r30 ;;
  if negb (eq_keys (d_pubkey <$> r31) [1002; 1003]) then Done 5 else
  r32 <- get_program_accounts ET r2 r3 1001 (Some [(Datasize 300)]) Finalized ;;
  r33 <- unwrap_r r32 ;;
  if negb (eq_keys (d_pubkey <$> r33) [1006; 1007]) then Done 6 else
  r34 <- get_program_accounts ET r2 r3 1001 (Some [(MemcmpC (Memcmp 10 (MBase64 (str_2))))]) Finalized ;;
  r35 <- unwrap_r r34 ;;
  if negb (eq_keys (d_pubkey <$> r35) [1006; 1007]) then Done 7 else
  r36 <- get_program_accounts ET r2 r3 1001 (Some [(MemcmpC (Memcmp 20 (MBase58 (str_3))))]) Finalized ;;
  r37 <- unwrap_r r36 ;;
  if negb (eq_keys (d_pubkey <$> r37) [1006; 1007]) then Done 8 else
  Done 0.
Example test_get_program_account_2_passes : test_get_program_account_2 = Done 0.
Proof. vm_compute. reflexivity. Qed.

(** account_storage/src/inmemory_account_store.rs 1157-1287: 24 assertions. *)
Definition writing_old_account_state : res N :=
  r1 <- add_filters ET fstore_empty [(AFilter [] (Some 1001) None)] ;;
  let r2 := filt_of r1 in
  let r3 := store_empty in
  r4 <- from_solana ET (SolAccount 101 (rdata 1 21) 1001 false 0) CNone ;;
  let r5 := Acct 1002 r4 0 0 in
  r3 <- init_account r2 r3 r5 ;;
  r6 <- get_account r3 1002 Processed ;;
  if negb (eq_r eq_oa r6 (ROk (Some r5))) then Done 1 else
  r7 <- get_account r3 1002 Confirmed ;;
  if negb (eq_r eq_oa r7 (ROk (Some r5))) then Done 2 else
  r8 <- from_solana ET (SolAccount 102 (rdata 2 22) 1001 false 0) CNone ;;
  let r9 := Acct 1002 r8 3 0 in
  r10 <- update_account r2 r3 r9 Processed ;;
  let r3 := r10.1 in
  r11 <- get_account r3 1002 Processed ;;
  if negb (eq_r eq_oa r11 (ROk (Some r9))) then Done 3 else
  r12 <- get_account r3 1002 Confirmed ;;
  if negb (eq_r eq_oa r12 (ROk (Some r5))) then Done 4 else
  r13 <- from_solana ET (SolAccount 103 (rdata 3 23) 1001 false 0) CNone ;;
  let r14 := Acct 1002 r13 2 0 in
  r15 <- update_account r2 r3 r14 Processed ;;
  let r3 := r15.1 in
  r16 <- get_account r3 1002 Processed ;;
  if negb (eq_r eq_oa r16 (ROk (Some r9))) then Done 5 else
  r17 <- get_account r3 1002 Confirmed ;;
  if negb (eq_r eq_oa r17 (ROk (Some r5))) then Done 6 else
  r18 <- process_slot r2 r3 (SlotInfo 2 1 0) Confirmed ;;
  let r3 := r18.1 in
  if negb (eq_l r18.2 [r14]) then Done 7 else
  r19 <- get_account r3 1002 Processed ;;
  if negb (eq_r eq_oa r19 (ROk (Some r9))) then Done 8 else
  r20 <- get_account r3 1002 Confirmed ;;
  if negb (eq_r eq_oa r20 (ROk (Some r14))) then Done 9 else
  r21 <- get_account r3 1002 Finalized ;;
  if negb (eq_r eq_oa r21 (ROk (Some r5))) then Done 10 else
  r22 <- from_solana ET (SolAccount 104 (rdata 4 24) 1001 false 0) CNone ;;
  let r23 := Acct 1002 r22 1 0 in
  r24 <- update_account r2 r3 r23 Confirmed ;;
  let r3 := r24.1 in
  r25 <- get_account r3 1002 Processed ;;
  if negb (eq_r eq_oa r25 (ROk (Some r9))) then Done 11 else
  r26 <- get_account r3 1002 Confirmed ;;
  if negb (eq_r eq_oa r26 (ROk (Some r14))) then Done 12 else
  r27 <- get_account r3 1002 Finalized ;;
  if negb (eq_r eq_oa r27 (ROk (Some r5))) then Done 13 else
  r28 <- process_slot r2 r3 (SlotInfo 3 2 0) Finalized ;;
  let r3 := r28.1 in
  if negb (eq_l r28.2 [r9]) then Done 14 else
  r29 <- get_account r3 1002 Processed ;;
  if negb (eq_r eq_oa r29 (ROk (Some r9))) then Done 15 else
  r30 <- get_account r3 1002 Confirmed ;;
  if negb (eq_r eq_oa r30 (ROk (Some r9))) then Done 16 else
  r31 <- get_account r3 1002 Finalized ;;
  if negb (eq_r eq_oa r31 (ROk (Some r9))) then Done 17 else
  r32 <- process_slot r2 r3 (SlotInfo 2 1 0) Finalized ;;
  let r3 := r32.1 in
  if negb (lenN r32.2 =? 0) then Done 18 else
  r33 <- get_account r3 1002 Processed ;;
  if negb (eq_r eq_oa r33 (ROk (Some r9))) then Done 19 else
  r34 <- get_account r3 1002 Confirmed ;;
  if negb (eq_r eq_oa r34 (ROk (Some r9))) then Done 20 else
  r35 <- get_account r3 1002 Finalized ;;
  if negb (eq_r eq_oa r35 (ROk (Some r9))) then Done 21 else
  r36 <- from_solana ET (SolAccount 105 (rdata 5 25) 1001 false 0) CNone ;;
  let r37 := Acct 1002 r36 1 0 in
  r38 <- from_solana ET (SolAccount 106 (rdata 6 26) 1001 false 0) CNone ;;
  let r39 := Acct 1002 r38 2 0 in
  r40 <- update_account r2 r3 r37 Processed ;;
  let r3 := r40.1 in
  r41 <- update_account r2 r3 r39 Confirmed ;;
  let r3 := r41.1 in
  r42 <- get_account r3 1002 Processed ;;
  if negb (eq_r eq_oa r42 (ROk (Some r9))) then Done 22 else
  r43 <- get_account r3 1002 Confirmed ;;
  if negb (eq_r eq_oa r43 (ROk (Some r9))) then Done 23 else
  r44 <- get_account r3 1002 Finalized ;;
  if negb (eq_r eq_oa r44 (ROk (Some r9))) then Done 24 else
  Done 0.
Example writing_old_account_state_passes : writing_old_account_state = Done 0.
Proof. vm_compute. reflexivity. Qed.

(** account_storage/src/inmemory_account_store.rs 1290-1365: 15 assertions. *)
Definition account_states_with_different_write_version : res N :=
  r1 <- add_filters ET fstore_empty [(AFilter [] (Some 1001) None)] ;;
  let r2 := filt_of r1 in
  let r3 := store_empty in
  r4 <- from_solana ET (SolAccount 101 (rdata 1 21) 1001 false 0) CNone ;;
  let r5 := Acct 1002 r4 1 10 in
  r6 <- update_account r2 r3 r5 Processed ;;
  let r3 := r6.1 in
  r7 <- get_account r3 1002 Processed ;;
  if negb (eq_r eq_oa r7 (ROk (Some r5))) then Done 1 else
  r8 <- get_account r3 1002 Confirmed ;;
  if negb (eq_r eq_oa r8 (ROk None)) then Done 2 else
  r9 <- get_account r3 1002 Finalized ;;
  if negb (eq_r eq_oa r9 (ROk None)) then Done 3 else
  r10 <- from_solana ET (SolAccount 102 (rdata 2 22) 1001 false 0) CNone ;;
  let r11 := Acct 1002 r10 1 11 in
  r12 <- update_account r2 r3 r11 Processed ;;
  let r3 := r12.1 in
  r13 <- get_account r3 1002 Processed ;;
  if negb (eq_r eq_oa r13 (ROk (Some r11))) then Done 4 else
  r14 <- get_account r3 1002 Confirmed ;;
  if negb (eq_r eq_oa r14 (ROk None)) then Done 5 else
  r15 <- get_account r3 1002 Finalized ;;
  if negb (eq_r eq_oa r15 (ROk None)) then Done 6 else
  r16 <- from_solana ET (SolAccount 103 (rdata 3 23) 1001 false 0) CNone ;;
  let r17 := Acct 1002 r16 1 9 in
  r18 <- update_account r2 r3 r17 Processed ;;
  let r3 := r18.1 in
  r19 <- get_account r3 1002 Processed ;;
  if negb (eq_r eq_oa r19 (ROk (Some r11))) then Done 7 else
  r20 <- get_account r3 1002 Confirmed ;;
  if negb (eq_r eq_oa r20 (ROk None)) then Done 8 else
  r21 <- get_account r3 1002 Finalized ;;
  if negb (eq_r eq_oa r21 (ROk None)) then Done 9 else
  r22 <- process_slot r2 r3 (SlotInfo 1 0 0) Finalized ;;
  let r3 := r22.1 in
  r23 <- get_account r3 1002 Processed ;;
  if negb (eq_r eq_oa r23 (ROk (Some r11))) then Done 10 else
  r24 <- get_account r3 1002 Confirmed ;;
  if negb (eq_r eq_oa r24 (ROk (Some r11))) then Done 11 else
  r25 <- get_account r3 1002 Finalized ;;
  if negb (eq_r eq_oa r25 (ROk (Some r11))) then Done 12 else
  r26 <- from_solana ET (SolAccount 104 (rdata 4 24) 1001 false 0) CNone ;;
  let r27 := Acct 1002 r26 1 12 in
  r28 <- update_account r2 r3 r27 Processed ;;
  let r3 := r28.1 in
  r29 <- get_account r3 1002 Processed ;;
  if negb (eq_r eq_oa r29 (ROk (Some r27))) then Done 13 else
  r30 <- get_account r3 1002 Confirmed ;;
  if negb (eq_r eq_oa r30 (ROk (Some r27))) then Done 14 else
  r31 <- get_account r3 1002 Finalized ;;
  if negb (eq_r eq_oa r31 (ROk (Some r27))) then Done 15 else
  Done 0.
Example account_states_with_different_write_version_passes : account_states_with_different_write_version = Done 0.
Proof. vm_compute. reflexivity. Qed.

(** account_storage/src/inmemory_account_store.rs 1368-2129: 168 assertions. *)
Definition test_owner_changes : res N :=
  r1 <- add_filters ET fstore_empty [(AFilter [] (Some 1001) None); (AFilter [] (Some 1002) None)] ;;
  let r2 := filt_of r1 in
  let r3 := store_empty in
  r4 <- from_solana ET (SolAccount 101 (rdata 1 21) 1001 false 0) CNone ;;
  let r5 := Acct 1004 r4 0 0 in
  r6 <- from_solana ET (SolAccount 102 (rdata 2 22) 1002 false 0) CNone ;;
  let r7 := Acct 1005 r6 1 0 in
  r8 <- from_solana ET (SolAccount 103 (rdata 3 23) 1003 false 0) CNone ;;
  let r9 := Acct 1006 r8 1 0 in
  r3 <- init_account r2 r3 r5 ;;
  r10 <- update_account r2 r3 r7 Processed ;;
  let r3 := r10.1 in
  r11 <- update_account r2 r3 r9 Processed ;;
  let r3 := r11.1 in
  r12 <- get_account r3 1004 Finalized ;;
  r13 <- unwrap_r r12 ;;
  if negb (eq_oa r13 (Some r5)) then Done 1 else
  r14 <- get_account r3 1004 Confirmed ;;
  r15 <- unwrap_r r14 ;;
  if negb (eq_oa r15 (Some r5)) then Done 2 else
  r16 <- get_account r3 1004 Processed ;;
  r17 <- unwrap_r r16 ;;
  if negb (eq_oa r17 (Some r5)) then Done 3 else
  r18 <- get_account r3 1005 Processed ;;
  r19 <- unwrap_r r18 ;;
  if negb (eq_oa r19 (Some r7)) then Done 4 else
  r20 <- get_account r3 1005 Confirmed ;;
  r21 <- unwrap_r r20 ;;
  if negb (eq_oa r21 None) then Done 5 else
  r22 <- get_account r3 1005 Finalized ;;
  r23 <- unwrap_r r22 ;;
  if negb (eq_oa r23 None) then Done 6 else
  r24 <- get_account r3 1006 Processed ;;
  r25 <- unwrap_r r24 ;;
  if negb (eq_oa r25 None) then Done 7 else
  r26 <- get_account r3 1006 Confirmed ;;
  r27 <- unwrap_r r26 ;;
  if negb (eq_oa r27 None) then Done 8 else
  r28 <- get_account r3 1006 Processed ;;
  r29 <- unwrap_r r28 ;;
  if negb (eq_oa r29 None) then Done 9 else
  r30 <- get_program_accounts ET r2 r3 1001 None Processed ;;
  r31 <- unwrap_r r30 ;;
  if negb (eq_l r31 [r5]) then Done 10 else
  r32 <- get_program_accounts ET r2 r3 1001 None Confirmed ;;
  r33 <- unwrap_r r32 ;;
  if negb (eq_l r33 [r5]) then Done 11 else
  r34 <- get_program_accounts ET r2 r3 1001 None Finalized ;;
  r35 <- unwrap_r r34 ;;
  if negb (eq_l r35 [r5]) then Done 12 else
  r36 <- get_program_accounts ET r2 r3 1002 None Processed ;;
  r37 <- unwrap_r r36 ;;
  if negb (eq_l r37 [r7]) then Done 13 else
  r38 <- get_program_accounts ET r2 r3 1002 None Confirmed ;;
  r39 <- unwrap_r r38 ;;
  if negb (eq_l r39 []) then Done 14 else
  r40 <- get_program_accounts ET r2 r3 1002 None Finalized ;;
  r41 <- unwrap_r r40 ;;
  if negb (eq_l r41 []) then Done 15 else
  r42 <- get_program_accounts ET r2 r3 1003 None Processed ;;
  if negb (eq_r eq_l r42 (RErr ConfigDoesnotContainRequiredFilters)) then Done 16 else
  r43 <- get_program_accounts ET r2 r3 1003 None Confirmed ;;
  if negb (eq_r eq_l r43 (RErr ConfigDoesnotContainRequiredFilters)) then Done 17 else
  r44 <- get_program_accounts ET r2 r3 1003 None Finalized ;;
  if negb (eq_r eq_l r44 (RErr ConfigDoesnotContainRequiredFilters)) then Done 18 else
  r45 <- process_slot r2 r3 (SlotInfo 1 0 0) Confirmed ;;
  let r3 := r45.1 in
  r46 <- from_solana ET (SolAccount 104 (rdata 4 24) 1002 false 0) CNone ;;
  let r47 := Acct 1004 r46 2 0 in
  r48 <- from_solana ET (SolAccount 105 (rdata 5 25) 1001 false 0) CNone ;;
  let r49 := Acct 1005 r48 2 0 in
  r50 <- update_account r2 r3 r47 Processed ;;
  let r3 := r50.1 in
  r51 <- update_account r2 r3 r49 Processed ;;
  let r3 := r51.1 in
  r52 <- get_account r3 1004 Finalized ;;
  r53 <- unwrap_r r52 ;;
  if negb (eq_oa r53 (Some r5)) then Done 19 else
  r54 <- get_account r3 1004 Confirmed ;;
  r55 <- unwrap_r r54 ;;
  if negb (eq_oa r55 (Some r5)) then Done 20 else
  r56 <- get_account r3 1004 Processed ;;
  r57 <- unwrap_r r56 ;;
  if negb (eq_oa r57 (Some r47)) then Done 21 else
  r58 <- get_account r3 1005 Processed ;;
  r59 <- unwrap_r r58 ;;
  if negb (eq_oa r59 (Some r49)) then Done 22 else
  r60 <- get_account r3 1005 Confirmed ;;
  r61 <- unwrap_r r60 ;;
  if negb (eq_oa r61 (Some r7)) then Done 23 else
  r62 <- get_account r3 1005 Finalized ;;
  r63 <- unwrap_r r62 ;;
  if negb (eq_oa r63 None) then Done 24 else
  r64 <- get_program_accounts ET r2 r3 1001 None Processed ;;
  r65 <- unwrap_r r64 ;;
  if negb (eq_l r65 [r49]) then Done 25 else
  r66 <- get_program_accounts ET r2 r3 1001 None Confirmed ;;
  r67 <- unwrap_r r66 ;;
  if negb (eq_l r67 [r5]) then Done 26 else
  r68 <- get_program_accounts ET r2 r3 1001 None Finalized ;;
  r69 <- unwrap_r r68 ;;
  if negb (eq_l r69 [r5]) then Done 27 else
  r70 <- get_program_accounts ET r2 r3 1002 None Processed ;;
  r71 <- unwrap_r r70 ;;
  if negb (eq_l r71 [r47]) then Done 28 else
  r72 <- get_program_accounts ET r2 r3 1002 None Confirmed ;;
  r73 <- unwrap_r r72 ;;
  if negb (eq_l r73 [r7]) then Done 29 else
  r74 <- get_program_accounts ET r2 r3 1002 None Finalized ;;
  if negb (eq_r eq_l r74 (ROk [])) then Done 30 else
  r75 <- process_slot r2 r3 (SlotInfo 1 0 0) Finalized ;;
  let r3 := r75.1 in
  r76 <- process_slot r2 r3 (SlotInfo 2 1 0) Confirmed ;;
  let r3 := r76.1 in
  r77 <- get_account r3 1004 Finalized ;;
  r78 <- unwrap_r r77 ;;
  if negb (eq_oa r78 (Some r5)) then Done 31 else
  r79 <- get_account r3 1004 Confirmed ;;
  r80 <- unwrap_r r79 ;;
  if negb (eq_oa r80 (Some r47)) then Done 32 else
  r81 <- get_account r3 1004 Processed ;;
  r82 <- unwrap_r r81 ;;
  if negb (eq_oa r82 (Some r47)) then Done 33 else
  r83 <- get_account r3 1005 Processed ;;
  r84 <- unwrap_r r83 ;;
  if negb (eq_oa r84 (Some r49)) then Done 34 else
  r85 <- get_account r3 1005 Confirmed ;;
  r86 <- unwrap_r r85 ;;
  if negb (eq_oa r86 (Some r49)) then Done 35 else
  r87 <- get_account r3 1005 Finalized ;;
  r88 <- unwrap_r r87 ;;
  if negb (eq_oa r88 (Some r7)) then Done 36 else
  r89 <- get_program_accounts ET r2 r3 1001 None Processed ;;
  r90 <- unwrap_r r89 ;;
  if negb (eq_l r90 [r49]) then Done 37 else
  r91 <- get_program_accounts ET r2 r3 1001 None Confirmed ;;
  r92 <- unwrap_r r91 ;;
  if negb (eq_l r92 [r49]) then Done 38 else
  r93 <- get_program_accounts ET r2 r3 1001 None Finalized ;;
  r94 <- unwrap_r r93 ;;
  if negb (eq_l r94 [r5]) then Done 39 else
  r95 <- get_program_accounts ET r2 r3 1002 None Processed ;;
  r96 <- unwrap_r r95 ;;
  if negb (eq_l r96 [r47]) then Done 40 else
  r97 <- get_program_accounts ET r2 r3 1002 None Confirmed ;;
  r98 <- unwrap_r r97 ;;
  if negb (eq_l r98 [r47]) then Done 41 else
  r99 <- get_program_accounts ET r2 r3 1002 None Finalized ;;
  r100 <- unwrap_r r99 ;;
  if negb (eq_l r100 [r7]) then Done 42 else
  r101 <- process_slot r2 r3 (SlotInfo 2 1 0) Finalized ;;
  let r3 := r101.1 in
  r102 <- get_account r3 1004 Finalized ;;
  r103 <- unwrap_r r102 ;;
  if negb (eq_oa r103 (Some r47)) then Done 43 else
  r104 <- get_account r3 1004 Confirmed ;;
  r105 <- unwrap_r r104 ;;
  if negb (eq_oa r105 (Some r47)) then Done 44 else
  r106 <- get_account r3 1004 Processed ;;
  r107 <- unwrap_r r106 ;;
  if negb (eq_oa r107 (Some r47)) then Done 45 else
  r108 <- get_account r3 1005 Processed ;;
  r109 <- unwrap_r r108 ;;
  if negb (eq_oa r109 (Some r49)) then Done 46 else
  r110 <- get_account r3 1005 Confirmed ;;
  r111 <- unwrap_r r110 ;;
  if negb (eq_oa r111 (Some r49)) then Done 47 else
  r112 <- get_account r3 1005 Finalized ;;
  r113 <- unwrap_r r112 ;;
  if negb (eq_oa r113 (Some r49)) then Done 48 else
  r114 <- get_program_accounts ET r2 r3 1001 None Processed ;;
  r115 <- unwrap_r r114 ;;
  if negb (eq_l r115 [r49]) then Done 49 else
  r116 <- get_program_accounts ET r2 r3 1001 None Confirmed ;;
  r117 <- unwrap_r r116 ;;
  if negb (eq_l r117 [r49]) then Done 50 else
  r118 <- get_program_accounts ET r2 r3 1001 None Finalized ;;
  r119 <- unwrap_r r118 ;;
  if negb (eq_l r119 [r49]) then Done 51 else
  r120 <- get_program_accounts ET r2 r3 1002 None Processed ;;
  r121 <- unwrap_r r120 ;;
  if negb (eq_l r121 [r47]) then Done 52 else
  r122 <- get_program_accounts ET r2 r3 1002 None Confirmed ;;
  r123 <- unwrap_r r122 ;;
  if negb (eq_l r123 [r47]) then Done 53 else
  r124 <- get_program_accounts ET r2 r3 1002 None Finalized ;;
  r125 <- unwrap_r r124 ;;
  if negb (eq_l r125 [r47]) then Done 54 else
  r126 <- from_solana ET (SolAccount 106 (rdata 6 26) 1003 false 0) CNone ;;
  let r127 := Acct 1004 r126 5 0 in
  r128 <- from_solana ET (SolAccount 107 (rdata 7 20) 1003 false 0) CNone ;;
  let r129 := Acct 1005 r128 5 0 in
  r130 <- from_solana ET (SolAccount 108 (rdata 8 21) 1001 false 0) CNone ;;
  let r131 := Acct 1006 r130 5 0 in
  r132 <- update_account r2 r3 r127 Processed ;;
  let r3 := r132.1 in
  r133 <- update_account r2 r3 r129 Processed ;;
  let r3 := r133.1 in
  r134 <- update_account r2 r3 r131 Processed ;;
  let r3 := r134.1 in
  r135 <- get_account r3 1004 Processed ;;
  r136 <- unwrap_r r135 ;;
  if negb (eq_oa r136 (Some r127)) then Done 55 else
  r137 <- get_account r3 1004 Confirmed ;;
  r138 <- unwrap_r r137 ;;
  if negb (eq_oa r138 (Some r47)) then Done 56 else
  r139 <- get_account r3 1004 Finalized ;;
  r140 <- unwrap_r r139 ;;
  if negb (eq_oa r140 (Some r47)) then Done 57 else
  r141 <- get_account r3 1005 Processed ;;
  r142 <- unwrap_r r141 ;;
  if negb (eq_oa r142 (Some r129)) then Done 58 else
  r143 <- get_account r3 1005 Confirmed ;;
  r144 <- unwrap_r r143 ;;
  if negb (eq_oa r144 (Some r49)) then Done 59 else
  r145 <- get_account r3 1005 Finalized ;;
  r146 <- unwrap_r r145 ;;
  if negb (eq_oa r146 (Some r49)) then Done 60 else
  r147 <- get_account r3 1006 Processed ;;
  r148 <- unwrap_r r147 ;;
  if negb (eq_oa r148 (Some r131)) then Done 61 else
  r149 <- get_account r3 1006 Confirmed ;;
  r150 <- unwrap_r r149 ;;
  if negb (eq_oa r150 None) then Done 62 else
  r151 <- get_account r3 1006 Finalized ;;
  r152 <- unwrap_r r151 ;;
  if negb (eq_oa r152 None) then Done 63 else
  r153 <- get_program_accounts ET r2 r3 1001 None Processed ;;
  r154 <- unwrap_r r153 ;;
  if negb (eq_l r154 [r131]) then Done 64 else
  r155 <- get_program_accounts ET r2 r3 1001 None Confirmed ;;
  r156 <- unwrap_r r155 ;;
  if negb (eq_l r156 [r49]) then Done 65 else
  r157 <- get_program_accounts ET r2 r3 1001 None Finalized ;;
  r158 <- unwrap_r r157 ;;
  if negb (eq_l r158 [r49]) then Done 66 else
  r159 <- get_program_accounts ET r2 r3 1002 None Processed ;;
  r160 <- unwrap_r r159 ;;
  if negb (eq_l r160 []) then Done 67 else
  r161 <- get_program_accounts ET r2 r3 1002 None Confirmed ;;
  r162 <- unwrap_r r161 ;;
  if negb (eq_l r162 [r47]) then Done 68 else
  r163 <- get_program_accounts ET r2 r3 1002 None Finalized ;;
  r164 <- unwrap_r r163 ;;
  if negb (eq_l r164 [r47]) then Done 69 else
  r165 <- get_program_accounts ET r2 r3 1003 None Processed ;;
  if negb (eq_r eq_l r165 (RErr ConfigDoesnotContainRequiredFilters)) then Done 70 else
  r166 <- get_program_accounts ET r2 r3 1003 None Confirmed ;;
  if negb (eq_r eq_l r166 (RErr ConfigDoesnotContainRequiredFilters)) then Done 71 else
  r167 <- get_program_accounts ET r2 r3 1003 None Finalized ;;
  if negb (eq_r eq_l r167 (RErr ConfigDoesnotContainRequiredFilters)) then Done 72 else
  r168 <- process_slot r2 r3 (SlotInfo 5 4 0) Confirmed ;;
  let r3 := r168.1 in
  r169 <- get_account r3 1004 Processed ;;
  r170 <- unwrap_r r169 ;;
  if negb (eq_oa r170 (Some r127)) then Done 73 else
  r171 <- get_account r3 1004 Confirmed ;;
  r172 <- unwrap_r r171 ;;
  if negb (eq_oa r172 (Some r127)) then Done 74 else
  r173 <- get_account r3 1004 Finalized ;;
  r174 <- unwrap_r r173 ;;
  if negb (eq_oa r174 (Some r47)) then Done 75 else
  r175 <- get_account r3 1005 Processed ;;
  r176 <- unwrap_r r175 ;;
  if negb (eq_oa r176 (Some r129)) then Done 76 else
  r177 <- get_account r3 1005 Confirmed ;;
  r178 <- unwrap_r r177 ;;
  if negb (eq_oa r178 (Some r129)) then Done 77 else
  r179 <- get_account r3 1005 Finalized ;;
  r180 <- unwrap_r r179 ;;
  if negb (eq_oa r180 (Some r49)) then Done 78 else
  r181 <- get_account r3 1006 Processed ;;
  r182 <- unwrap_r r181 ;;
  if negb (eq_oa r182 (Some r131)) then Done 79 else
  r183 <- get_account r3 1006 Confirmed ;;
  r184 <- unwrap_r r183 ;;
  if negb (eq_oa r184 (Some r131)) then Done 80 else
  r185 <- get_account r3 1006 Finalized ;;
  r186 <- unwrap_r r185 ;;
  if negb (eq_oa r186 None) then Done 81 else
  r187 <- get_program_accounts ET r2 r3 1001 None Processed ;;
  r188 <- unwrap_r r187 ;;
  if negb (eq_l r188 [r131]) then Done 82 else
  r189 <- get_program_accounts ET r2 r3 1001 None Confirmed ;;
  r190 <- unwrap_r r189 ;;
  if negb (eq_l r190 [r131]) then Done 83 else
  r191 <- get_program_accounts ET r2 r3 1001 None Finalized ;;
  r192 <- unwrap_r r191 ;;
  if negb (eq_l r192 [r49]) then Done 84 else
  r193 <- get_program_accounts ET r2 r3 1002 None Processed ;;
  r194 <- unwrap_r r193 ;;
  if negb (eq_l r194 []) then Done 85 else
  r195 <- get_program_accounts ET r2 r3 1002 None Confirmed ;;
  r196 <- unwrap_r r195 ;;
  if negb (eq_l r196 []) then Done 86 else
  r197 <- get_program_accounts ET r2 r3 1002 None Finalized ;;
  r198 <- unwrap_r r197 ;;
  if negb (eq_l r198 [r47]) then Done 87 else
  r199 <- get_program_accounts ET r2 r3 1003 None Processed ;;
  if negb (eq_r eq_l r199 (RErr ConfigDoesnotContainRequiredFilters)) then Done 88 else
  r200 <- get_program_accounts ET r2 r3 1003 None Confirmed ;;
  if negb (eq_r eq_l r200 (RErr ConfigDoesnotContainRequiredFilters)) then Done 89 else
  r201 <- get_program_accounts ET r2 r3 1003 None Finalized ;;
  if negb (eq_r eq_l r201 (RErr ConfigDoesnotContainRequiredFilters)) then Done 90 else
  r202 <- process_slot r2 r3 (SlotInfo 5 4 0) Finalized ;;
  let r3 := r202.1 in
  r203 <- get_account r3 1004 Processed ;;
  r204 <- unwrap_r r203 ;;
  if negb (eq_oa r204 None) then Done 91 else
  r205 <- get_account r3 1004 Confirmed ;;
  r206 <- unwrap_r r205 ;;
  if negb (eq_oa r206 None) then Done 92 else
  r207 <- get_account r3 1004 Finalized ;;
  r208 <- unwrap_r r207 ;;
  if negb (eq_oa r208 None) then Done 93 else
  r209 <- get_account r3 1005 Processed ;;
  r210 <- unwrap_r r209 ;;
  if negb (eq_oa r210 None) then Done 94 else
  r211 <- get_account r3 1005 Confirmed ;;
  r212 <- unwrap_r r211 ;;
  if negb (eq_oa r212 None) then Done 95 else
  r213 <- get_account r3 1005 Finalized ;;
  r214 <- unwrap_r r213 ;;
  if negb (eq_oa r214 None) then Done 96 else
  r215 <- get_account r3 1006 Processed ;;
  r216 <- unwrap_r r215 ;;
  if negb (eq_oa r216 (Some r131)) then Done 97 else
  r217 <- get_account r3 1006 Confirmed ;;
  r218 <- unwrap_r r217 ;;
  if negb (eq_oa r218 (Some r131)) then Done 98 else
  r219 <- get_account r3 1006 Finalized ;;
  r220 <- unwrap_r r219 ;;
  if negb (eq_oa r220 (Some r131)) then Done 99 else
  r221 <- get_program_accounts ET r2 r3 1001 None Processed ;;
  r222 <- unwrap_r r221 ;;
  if negb (eq_l r222 [r131]) then Done 100 else
  r223 <- get_program_accounts ET r2 r3 1001 None Confirmed ;;
  r224 <- unwrap_r r223 ;;
  if negb (eq_l r224 [r131]) then Done 101 else
  r225 <- get_program_accounts ET r2 r3 1001 None Finalized ;;
  r226 <- unwrap_r r225 ;;
  if negb (eq_l r226 [r131]) then Done 102 else
  r227 <- get_program_accounts ET r2 r3 1002 None Processed ;;
  r228 <- unwrap_r r227 ;;
  if negb (eq_l r228 []) then Done 103 else
  r229 <- get_program_accounts ET r2 r3 1002 None Confirmed ;;
  r230 <- unwrap_r r229 ;;
  if negb (eq_l r230 []) then Done 104 else
  r231 <- get_program_accounts ET r2 r3 1002 None Finalized ;;
  r232 <- unwrap_r r231 ;;
  if negb (eq_l r232 []) then Done 105 else
  r233 <- get_program_accounts ET r2 r3 1003 None Processed ;;
  if negb (eq_r eq_l r233 (RErr ConfigDoesnotContainRequiredFilters)) then Done 106 else
  r234 <- get_program_accounts ET r2 r3 1003 None Confirmed ;;
  if negb (eq_r eq_l r234 (RErr ConfigDoesnotContainRequiredFilters)) then Done 107 else
  r235 <- get_program_accounts ET r2 r3 1003 None Finalized ;;
  if negb (eq_r eq_l r235 (RErr ConfigDoesnotContainRequiredFilters)) then Done 108 else
  r236 <- from_solana ET (SolAccount 109 (rdata 9 22) 1001 false 0) CNone ;;
  let r237 := Acct 1005 r236 6 0 in
  r238 <- update_account r2 r3 r237 Processed ;;
  let r3 := r238.1 in
  r239 <- get_account r3 1004 Processed ;;
  r240 <- unwrap_r r239 ;;
  if negb (eq_oa r240 None) then Done 109 else
  r241 <- get_account r3 1004 Confirmed ;;
  r242 <- unwrap_r r241 ;;
  if negb (eq_oa r242 None) then Done 110 else
  r243 <- get_account r3 1004 Finalized ;;
  r244 <- unwrap_r r243 ;;
  if negb (eq_oa r244 None) then Done 111 else
  r245 <- get_account r3 1005 Processed ;;
  r246 <- unwrap_r r245 ;;
  if negb (eq_oa r246 (Some r237)) then Done 112 else
  r247 <- get_account r3 1005 Confirmed ;;
  r248 <- unwrap_r r247 ;;
  if negb (eq_oa r248 None) then Done 113 else
  r249 <- get_account r3 1005 Finalized ;;
  r250 <- unwrap_r r249 ;;
  if negb (eq_oa r250 None) then Done 114 else
  r251 <- get_account r3 1006 Processed ;;
  r252 <- unwrap_r r251 ;;
  if negb (eq_oa r252 (Some r131)) then Done 115 else
  r253 <- get_account r3 1006 Confirmed ;;
  r254 <- unwrap_r r253 ;;
  if negb (eq_oa r254 (Some r131)) then Done 116 else
  r255 <- get_account r3 1006 Finalized ;;
  r256 <- unwrap_r r255 ;;
  if negb (eq_oa r256 (Some r131)) then Done 117 else
  r257 <- get_program_accounts ET r2 r3 1001 None Processed ;;
  r258 <- unwrap_r r257 ;;
  if negb (existsb (acct_eqb r237) r258) then Done 118 else
  r259 <- get_program_accounts ET r2 r3 1001 None Processed ;;
  r260 <- unwrap_r r259 ;;
  if negb (existsb (acct_eqb r131) r260) then Done 119 else
  r261 <- get_program_accounts ET r2 r3 1001 None Confirmed ;;
  r262 <- unwrap_r r261 ;;
  if negb (eq_l r262 [r131]) then Done 120 else
  r263 <- get_program_accounts ET r2 r3 1001 None Finalized ;;
  r264 <- unwrap_r r263 ;;
  if negb (eq_l r264 [r131]) then Done 121 else
  r265 <- get_program_accounts ET r2 r3 1002 None Processed ;;
  r266 <- unwrap_r r265 ;;
  if negb (eq_l r266 []) then Done 122 else
  r267 <- get_program_accounts ET r2 r3 1002 None Confirmed ;;
  r268 <- unwrap_r r267 ;;
  if negb (eq_l r268 []) then Done 123 else
  r269 <- get_program_accounts ET r2 r3 1002 None Finalized ;;
  r270 <- unwrap_r r269 ;;
  if negb (eq_l r270 []) then Done 124 else
  r271 <- get_program_accounts ET r2 r3 1003 None Processed ;;
  if negb (eq_r eq_l r271 (RErr ConfigDoesnotContainRequiredFilters)) then Done 125 else
  r272 <- get_program_accounts ET r2 r3 1003 None Confirmed ;;
  if negb (eq_r eq_l r272 (RErr ConfigDoesnotContainRequiredFilters)) then Done 126 else
  r273 <- get_program_accounts ET r2 r3 1003 None Finalized ;;
  if negb (eq_r eq_l r273 (RErr ConfigDoesnotContainRequiredFilters)) then Done 127 else
  r274 <- process_slot r2 r3 (SlotInfo 6 5 0) Confirmed ;;
  let r3 := r274.1 in
  r275 <- get_account r3 1004 Processed ;;
  r276 <- unwrap_r r275 ;;
  if negb (eq_oa r276 None) then Done 128 else
  r277 <- get_account r3 1004 Confirmed ;;
  r278 <- unwrap_r r277 ;;
  if negb (eq_oa r278 None) then Done 129 else
  r279 <- get_account r3 1004 Finalized ;;
  r280 <- unwrap_r r279 ;;
  if negb (eq_oa r280 None) then Done 130 else
  r281 <- get_account r3 1005 Processed ;;
  r282 <- unwrap_r r281 ;;
  if negb (eq_oa r282 (Some r237)) then Done 131 else
  r283 <- get_account r3 1005 Confirmed ;;
  r284 <- unwrap_r r283 ;;
  if negb (eq_oa r284 (Some r237)) then Done 132 else
  r285 <- get_account r3 1005 Finalized ;;
  r286 <- unwrap_r r285 ;;
  if negb (eq_oa r286 None) then Done 133 else
  r287 <- get_account r3 1006 Processed ;;
  r288 <- unwrap_r r287 ;;
  if negb (eq_oa r288 (Some r131)) then Done 134 else
  r289 <- get_account r3 1006 Confirmed ;;
  r290 <- unwrap_r r289 ;;
  if negb (eq_oa r290 (Some r131)) then Done 135 else
  r291 <- get_account r3 1006 Finalized ;;
  r292 <- unwrap_r r291 ;;
  if negb (eq_oa r292 (Some r131)) then Done 136 else
  r293 <- get_program_accounts ET r2 r3 1001 None Processed ;;
  r294 <- unwrap_r r293 ;;
  if negb (existsb (acct_eqb r237) r294) then Done 137 else
  r295 <- get_program_accounts ET r2 r3 1001 None Processed ;;
  r296 <- unwrap_r r295 ;;
  if negb (existsb (acct_eqb r131) r296) then Done 138 else
  r297 <- get_program_accounts ET r2 r3 1001 None Confirmed ;;
  r298 <- unwrap_r r297 ;;
  if negb (existsb (acct_eqb r237) r298) then Done 139 else
  r299 <- get_program_accounts ET r2 r3 1001 None Confirmed ;;
  r300 <- unwrap_r r299 ;;
  if negb (existsb (acct_eqb r131) r300) then Done 140 else
  r301 <- get_program_accounts ET r2 r3 1001 None Finalized ;;
  r302 <- unwrap_r r301 ;;
  if negb (eq_l r302 [r131]) then Done 141 else
  r303 <- get_program_accounts ET r2 r3 1002 None Processed ;;
  r304 <- unwrap_r r303 ;;
  if negb (eq_l r304 []) then Done 142 else
  r305 <- get_program_accounts ET r2 r3 1002 None Confirmed ;;
  r306 <- unwrap_r r305 ;;
  if negb (eq_l r306 []) then Done 143 else
  r307 <- get_program_accounts ET r2 r3 1002 None Finalized ;;
  r308 <- unwrap_r r307 ;;
  if negb (eq_l r308 []) then Done 144 else
  r309 <- get_program_accounts ET r2 r3 1003 None Processed ;;
  if negb (eq_r eq_l r309 (RErr ConfigDoesnotContainRequiredFilters)) then Done 145 else
  r310 <- get_program_accounts ET r2 r3 1003 None Confirmed ;;
  if negb (eq_r eq_l r310 (RErr ConfigDoesnotContainRequiredFilters)) then Done 146 else
  r311 <- get_program_accounts ET r2 r3 1003 None Finalized ;;
  if negb (eq_r eq_l r311 (RErr ConfigDoesnotContainRequiredFilters)) then Done 147 else
  r312 <- process_slot r2 r3 (SlotInfo 6 5 0) Finalized ;;
  let r3 := r312.1 in
  r313 <- get_account r3 1004 Processed ;;
  r314 <- unwrap_r r313 ;;
  if negb (eq_oa r314 None) then Done 148 else
  r315 <- get_account r3 1004 Confirmed ;;
  r316 <- unwrap_r r315 ;;
  if negb (eq_oa r316 None) then Done 149 else
  r317 <- get_account r3 1004 Finalized ;;
  r318 <- unwrap_r r317 ;;
  if negb (eq_oa r318 None) then Done 150 else
  r319 <- get_account r3 1005 Processed ;;
  r320 <- unwrap_r r319 ;;
  if negb (eq_oa r320 (Some r237)) then Done 151 else
  r321 <- get_account r3 1005 Confirmed ;;
  r322 <- unwrap_r r321 ;;
  if negb (eq_oa r322 (Some r237)) then Done 152 else
  r323 <- get_account r3 1005 Finalized ;;
  r324 <- unwrap_r r323 ;;
  if negb (eq_oa r324 (Some r237)) then Done 153 else
  r325 <- get_account r3 1006 Processed ;;
  r326 <- unwrap_r r325 ;;
  if negb (eq_oa r326 (Some r131)) then Done 154 else
  r327 <- get_account r3 1006 Confirmed ;;
  r328 <- unwrap_r r327 ;;
  if negb (eq_oa r328 (Some r131)) then Done 155 else
  r329 <- get_account r3 1006 Finalized ;;
  r330 <- unwrap_r r329 ;;
  if negb (eq_oa r330 (Some r131)) then Done 156 else
  r331 <- get_program_accounts ET r2 r3 1001 None Processed ;;
  r332 <- unwrap_r r331 ;;
  if negb (existsb (acct_eqb r237) r332) then Done 157 else
  r333 <- get_program_accounts ET r2 r3 1001 None Processed ;;
  r334 <- unwrap_r r333 ;;
  if negb (existsb (acct_eqb r131) r334) then Done 158 else
  r335 <- get_program_accounts ET r2 r3 1001 None Confirmed ;;
  r336 <- unwrap_r r335 ;;
  if negb (existsb (acct_eqb r237) r336) then Done 159 else
  r337 <- get_program_accounts ET r2 r3 1001 None Confirmed ;;
  r338 <- unwrap_r r337 ;;
  if negb (existsb (acct_eqb r131) r338) then Done 160 else
  r339 <- get_program_accounts ET r2 r3 1001 None Finalized ;;
  r340 <- unwrap_r r339 ;;
  if negb (existsb (acct_eqb r237) r340) then Done 161 else
  r341 <- get_program_accounts ET r2 r3 1001 None Finalized ;;
  r342 <- unwrap_r r341 ;;
  if negb (existsb (acct_eqb r131) r342) then Done 162 else
  r343 <- get_program_accounts ET r2 r3 1002 None Processed ;;
  r344 <- unwrap_r r343 ;;
  if negb (eq_l r344 []) then Done 163 else
  r345 <- get_program_accounts ET r2 r3 1002 None Confirmed ;;
  r346 <- unwrap_r r345 ;;
  if negb (eq_l r346 []) then Done 164 else
  r347 <- get_program_accounts ET r2 r3 1002 None Finalized ;;
  r348 <- unwrap_r r347 ;;
  if negb (eq_l r348 []) then Done 165 else
  r349 <- get_program_accounts ET r2 r3 1003 None Processed ;;
  if negb (eq_r eq_l r349 (RErr ConfigDoesnotContainRequiredFilters)) then Done 166 else
  r350 <- get_program_accounts ET r2 r3 1003 None Confirmed ;;
  if negb (eq_r eq_l r350 (RErr ConfigDoesnotContainRequiredFilters)) then Done 167 else
  r351 <- get_program_accounts ET r2 r3 1003 None Finalized ;;
  if negb (eq_r eq_l r351 (RErr ConfigDoesnotContainRequiredFilters)) then Done 168 else
  Done 0.
Example test_owner_changes_passes : test_owner_changes = Done 0.
Proof. vm_compute. reflexivity. Qed.

(** account_storage/src/inmemory_account_store.rs 2132-2302: 35 assertions. *)
Definition test_account_deletions : res N :=
  r1 <- add_filters ET fstore_empty [(AFilter [] (Some 1001) None)] ;;
  let r2 := filt_of r1 in
  let r3 := store_empty in
  r4 <- from_solana ET (SolAccount 101 (rdata 1 21) 1001 false 0) CNone ;;
  let r5 := Acct 1002 r4 1 1 in
  r3 <- init_account r2 r3 r5 ;;
  r6 <- get_account r3 1002 Processed ;;
  r7 <- unwrap_r r6 ;;
  if negb (eq_oa r7 (Some r5)) then Done 1 else
  r8 <- get_account r3 1002 Confirmed ;;
  r9 <- unwrap_r r8 ;;
  if negb (eq_oa r9 (Some r5)) then Done 2 else
  r10 <- get_account r3 1002 Finalized ;;
  r11 <- unwrap_r r10 ;;
  if negb (eq_oa r11 (Some r5)) then Done 3 else
  r12 <- get_program_accounts ET r2 r3 1001 None Processed ;;
  r13 <- unwrap_r r12 ;;
  if negb (eq_l r13 [r5]) then Done 4 else
  r14 <- get_program_accounts ET r2 r3 1001 None Confirmed ;;
  r15 <- unwrap_r r14 ;;
  if negb (eq_l r15 [r5]) then Done 5 else
  r16 <- get_program_accounts ET r2 r3 1001 None Finalized ;;
  r17 <- unwrap_r r16 ;;
  if negb (eq_l r17 [r5]) then Done 6 else
  r18 <- from_solana ET (SolAccount 102 (rdata 2 22) 1001 false 0) CNone ;;
  let r19 := Acct 1002 r18 2 2 in
  r20 <- update_account r2 r3 r19 Processed ;;
  let r3 := r20.1 in
  let r21 := Acct 1002 (Account 0 (DRaw (bs [])) 0 false 18446744073709551615) 2 3 in
  let r22 := Acct 1003 (Account 0 (DRaw (bs [])) 0 false 18446744073709551615) 2 4 in
  r23 <- update_account r2 r3 r21 Processed ;;
  let r3 := r23.1 in
  r24 <- update_account r2 r3 r22 Processed ;;
  let r3 := r24.1 in
  r25 <- get_account r3 1002 Processed ;;
  r26 <- unwrap_r r25 ;;
  if negb (eq_oa r26 None) then Done 7 else
  r27 <- get_account r3 1002 Confirmed ;;
  r28 <- unwrap_r r27 ;;
  if negb (eq_oa r28 (Some r5)) then Done 8 else
  r29 <- get_account r3 1002 Finalized ;;
  r30 <- unwrap_r r29 ;;
  if negb (eq_oa r30 (Some r5)) then Done 9 else
  r31 <- get_account r3 1003 Processed ;;
  r32 <- unwrap_r r31 ;;
  if negb (eq_oa r32 None) then Done 10 else
  r33 <- get_account r3 1003 Confirmed ;;
  r34 <- unwrap_r r33 ;;
  if negb (eq_oa r34 None) then Done 11 else
  r35 <- get_account r3 1003 Finalized ;;
  r36 <- unwrap_r r35 ;;
  if negb (eq_oa r36 None) then Done 12 else
  r37 <- get_program_accounts ET r2 r3 1001 None Processed ;;
  r38 <- unwrap_r r37 ;;
  if negb (eq_l r38 []) then Done 13 else
  r39 <- get_program_accounts ET r2 r3 1001 None Confirmed ;;
  r40 <- unwrap_r r39 ;;
  if negb (eq_l r40 [r5]) then Done 14 else
  r41 <- get_program_accounts ET r2 r3 1001 None Finalized ;;
  r42 <- unwrap_r r41 ;;
  if negb (eq_l r42 [r5]) then Done 15 else
  r43 <- process_slot r2 r3 (SlotInfo 2 1 0) Confirmed ;;
  let r3 := r43.1 in
  if negb (eq_l r43.2 [r21]) then Done 16 else
  r44 <- get_account r3 1002 Processed ;;
  r45 <- unwrap_r r44 ;;
  if negb (eq_oa r45 None) then Done 17 else
  r46 <- get_account r3 1002 Confirmed ;;
  r47 <- unwrap_r r46 ;;
  if negb (eq_oa r47 None) then Done 18 else
  r48 <- get_account r3 1002 Finalized ;;
  r49 <- unwrap_r r48 ;;
  if negb (eq_oa r49 (Some r5)) then Done 19 else
  r50 <- get_account r3 1003 Processed ;;
  r51 <- unwrap_r r50 ;;
  if negb (eq_oa r51 None) then Done 20 else
  r52 <- get_account r3 1003 Confirmed ;;
  r53 <- unwrap_r r52 ;;
  if negb (eq_oa r53 None) then Done 21 else
  r54 <- get_account r3 1003 Finalized ;;
  r55 <- unwrap_r r54 ;;
  if negb (eq_oa r55 None) then Done 22 else
  r56 <- get_program_accounts ET r2 r3 1001 None Processed ;;
  r57 <- unwrap_r r56 ;;
  if negb (eq_l r57 []) then Done 23 else
  r58 <- get_program_accounts ET r2 r3 1001 None Confirmed ;;
  r59 <- unwrap_r r58 ;;
  if negb (eq_l r59 []) then Done 24 else
  r60 <- get_program_accounts ET r2 r3 1001 None Finalized ;;
  r61 <- unwrap_r r60 ;;
  if negb (eq_l r61 [r5]) then Done 25 else
  r62 <- process_slot r2 r3 (SlotInfo 2 1 0) Finalized ;;
  let r3 := r62.1 in
  if negb (eq_l r62.2 [r21]) then Done 26 else
  r63 <- get_account r3 1002 Processed ;;
  r64 <- unwrap_r r63 ;;
  if negb (eq_oa r64 None) then Done 27 else
  r65 <- get_account r3 1002 Confirmed ;;
  r66 <- unwrap_r r65 ;;
  if negb (eq_oa r66 None) then Done 28 else
  r67 <- get_account r3 1002 Finalized ;;
  r68 <- unwrap_r r67 ;;
  if negb (eq_oa r68 None) then Done 29 else
  r69 <- get_account r3 1003 Processed ;;
  r70 <- unwrap_r r69 ;;
  if negb (eq_oa r70 None) then Done 30 else
  r71 <- get_account r3 1003 Confirmed ;;
  r72 <- unwrap_r r71 ;;
  if negb (eq_oa r72 None) then Done 31 else
  r73 <- get_account r3 1003 Finalized ;;
  r74 <- unwrap_r r73 ;;
  if negb (eq_oa r74 None) then Done 32 else
  r75 <- get_program_accounts ET r2 r3 1001 None Processed ;;
  r76 <- unwrap_r r75 ;;
  if negb (eq_l r76 []) then Done 33 else
  r77 <- get_program_accounts ET r2 r3 1001 None Confirmed ;;
  r78 <- unwrap_r r77 ;;
  if negb (eq_l r78 []) then Done 34 else
  r79 <- get_program_accounts ET r2 r3 1001 None Finalized ;;
  r80 <- unwrap_r r79 ;;
  if negb (eq_l r80 []) then Done 35 else
  Done 0.
Example test_account_deletions_passes : test_account_deletions = Done 0.
Proof. vm_compute. reflexivity. Qed.

(** account_storage/src/inmemory_account_store.rs 2305-2415: 6 assertions. *)
Definition test_snapshot_creation_and_loading : res N :=
  r1 <- add_filters ET fstore_empty [(AFilter [] (Some 1001) None); (AFilter [] (Some 1002) None)] ;;
  let r2 := filt_of r1 in
  let r3 := store_empty in
  r4 <- from_solana ET (SolAccount 101 (rdata 1 21) 1001 false 0) CNone ;;
  let r5 := Acct 1003 r4 1 0 in
  r6 <- from_solana ET (SolAccount 102 (rdata 2 22) 1001 false 0) CNone ;;
  let r7 := Acct 1004 r6 1 0 in
  r8 <- from_solana ET (SolAccount 103 (rdata 3 23) 1002 false 0) CNone ;;
  let r9 := Acct 1005 r8 1 0 in
  r10 <- from_solana ET (SolAccount 104 (rdata 4 24) 1002 false 0) CNone ;;
  let r11 := Acct 1006 r10 1 0 in
  r3 <- init_account r2 r3 r5 ;;
  r3 <- init_account r2 r3 r7 ;;
  r3 <- init_account r2 r3 r9 ;;
  r3 <- init_account r2 r3 r11 ;;
  r12 <- from_solana ET (SolAccount 105 (rdata 5 25) 1001 false 0) CNone ;;
  let r13 := Acct 1003 r12 2 0 in
  r14 <- from_solana ET (SolAccount 106 (rdata 6 26) 1001 false 0) CNone ;;
  let r15 := Acct 1004 r14 2 0 in
  r16 <- from_solana ET (SolAccount 107 (rdata 7 20) 1002 false 0) CNone ;;
  let r17 := Acct 1005 r16 2 0 in
  r18 <- from_solana ET (SolAccount 108 (rdata 8 21) 1002 false 0) CNone ;;
  let r19 := Acct 1006 r18 2 0 in
  r20 <- update_account r2 r3 r13 Processed ;;
  let r3 := r20.1 in
  r21 <- update_account r2 r3 r15 Processed ;;
  let r3 := r21.1 in
  r22 <- update_account r2 r3 r17 Processed ;;
  let r3 := r22.1 in
  r23 <- update_account r2 r3 r19 Processed ;;
  let r3 := r23.1 in
  r24 <- from_solana ET (SolAccount 109 (rdata 9 22) 1001 false 0) CNone ;;
  let r25 := Acct 1003 r24 3 0 in
  r26 <- from_solana ET (SolAccount 110 (rdata 10 23) 1002 false 0) CNone ;;
  let r27 := Acct 1005 r26 3 0 in
  r28 <- update_account r2 r3 r25 Processed ;;
  let r3 := r28.1 in
  r29 <- update_account r2 r3 r27 Processed ;;
  let r3 := r29.1 in
  r30 <- process_slot r2 r3 (SlotInfo 2 1 0) Finalized ;;
  let r3 := r30.1 in
  r31 <- get_program_accounts ET r2 r3 1001 None Processed ;;
  r32 <- unwrap_r r31 ;;
  if negb ((eq_l r32 [r25; r15]) || (eq_l r32 [r15; r25])) then Done 1 else
  r33 <- get_program_accounts ET r2 r3 1002 None Processed ;;
  r34 <- unwrap_r r33 ;;
  if negb ((eq_l r34 [r27; r19]) || (eq_l r34 [r19; r27])) then Done 2 else
  r35 <- create_snapshot ET r2 r3 1001 ;;
  r36 <- unwrap_r r35 ;;
  r37 <- create_snapshot ET r2 r3 1002 ;;
  r38 <- unwrap_r r37 ;;
  let r39 := store_empty in
  r40 <- get_program_accounts ET r2 r39 1001 None Processed ;;
  r41 <- unwrap_r r40 ;;
  if negb (eq_l r41 []) then Done 3 else
  r42 <- get_program_accounts ET r2 r39 1002 None Processed ;;
  r43 <- unwrap_r r42 ;;
  if negb (eq_l r43 []) then Done 4 else
  r44 <- load_from_snapshot r2 r39 1001 r36 ;;
  let r39 := r44.1 in
  r45 <- unwrap_r r44.2 ;;
  r46 <- load_from_snapshot r2 r39 1002 r38 ;;
  let r39 := r46.1 in
  r47 <- unwrap_r r46.2 ;;
  r48 <- get_program_accounts ET r2 r39 1001 None Processed ;;
  r49 <- unwrap_r r48 ;;
  if negb ((eq_l r49 [r13; r15]) || (eq_l r49 [r15; r13])) then Done 5 else
  r50 <- get_program_accounts ET r2 r39 1002 None Processed ;;
  r51 <- unwrap_r r50 ;;
  if negb ((eq_l r51 [r17; r19]) || (eq_l r51 [r19; r17])) then Done 6 else
  Done 0.
Example test_snapshot_creation_and_loading_passes : test_snapshot_creation_and_loading = Done 0.
Proof. vm_compute. reflexivity. Qed.

(** common/src/simple_filter_store.rs 175-213: 4 assertions. *)
Definition test_program_that_allows_all : res N :=
  let r1 := fstore_empty in
  r1 <- add_filters ET r1 [(AFilter [] (Some 1001) None)] ;;
  if negb (contains_filter r1 (AFilter [] (Some 1001) None)) then Done 1 else
  if negb (negb (contains_filter r1 (AFilter [] (Some 1002) None))) then Done 2 else
  if negb (contains_filter r1 (AFilter [] (Some 1001) (Some [(Datasize 100)]))) then Done 3 else
  if negb (contains_filter r1 (AFilter [] (Some 1001) (Some [(Datasize 100); (MemcmpC (Memcmp 2 (MBytes (bs [123]))))]))) then Done 4 else
  Done 0.
Example test_program_that_allows_all_passes : test_program_that_allows_all = Done 0.
Proof. vm_compute. reflexivity. Qed.

(** common/src/simple_filter_store.rs 216-291: 6 assertions. *)
Definition test_program_that_partial_filtering : res N :=
  let r1 := fstore_empty in
  r1 <- add_filters ET r1 [(AFilter [] (Some 1001) (Some [(Datasize 100); (MemcmpC (Memcmp 2 (MBytes (bs [123]))))]))] ;;
  if negb (negb (contains_filter r1 (AFilter [] (Some 1001) None))) then Done 1 else
  if negb (negb (contains_filter r1 (AFilter [] (Some 1002) None))) then Done 2 else
  if negb (negb (contains_filter r1 (AFilter [] (Some 1001) (Some [(Datasize 100)])))) then Done 3 else
  if negb (contains_filter r1 (AFilter [] (Some 1001) (Some [(Datasize 100); (MemcmpC (Memcmp 2 (MBytes (bs [123]))))]))) then Done 4 else
  if negb (contains_filter r1 (AFilter [] (Some 1001) (Some [(MemcmpC (Memcmp 2 (MBytes (bs [123])))); (Datasize 100)]))) then Done 5 else
  if negb (contains_filter r1 (AFilter [] (Some 1001) (Some [(MemcmpC (Memcmp 5 (MBytes (bs [8; 9; 10])))); (MemcmpC (Memcmp 2 (MBytes (bs [123])))); (Datasize 100)]))) then Done 6 else
  Done 0.
Example test_program_that_partial_filtering_passes : test_program_that_partial_filtering = Done 0.
Proof. vm_compute. reflexivity. Qed.

(** common/src/simple_filter_store.rs 294-428: 9 assertions. *)
Definition test_program_that_partial_filtering_2 : res N :=
  let r1 := fstore_empty in
  r1 <- add_filters ET r1 [(AFilter [] (Some 1001) (Some [(Datasize 100); (MemcmpC (Memcmp 2 (MBytes (bs [1; 2; 3])))); (MemcmpC (Memcmp 10 (MBytes (bs [5; 6; 7]))))]))] ;;
  if negb (negb (contains_filter r1 (AFilter [] (Some 1001) None))) then Done 1 else
  if negb (negb (contains_filter r1 (AFilter [] (Some 1002) None))) then Done 2 else
  if negb (negb (contains_filter r1 (AFilter [] (Some 1001) (Some [(Datasize 100)])))) then Done 3 else
  if negb (negb (contains_filter r1 (AFilter [] (Some 1001) (Some [(Datasize 100); (MemcmpC (Memcmp 2 (MBytes (bs [123]))))])))) then Done 4 else
  if negb (contains_filter r1 (AFilter [] (Some 1001) (Some [(Datasize 100); (MemcmpC (Memcmp 2 (MBytes (bs [1; 2; 3])))); (MemcmpC (Memcmp 10 (MBytes (bs [5; 6; 7]))))]))) then Done 5 else
  if negb (contains_filter r1 (AFilter [] (Some 1001) (Some [(MemcmpC (Memcmp 2 (MBytes (bs [1; 2; 3])))); (Datasize 100); (MemcmpC (Memcmp 10 (MBytes (bs [5; 6; 7]))))]))) then Done 6 else
  if negb (contains_filter r1 (AFilter [] (Some 1001) (Some [(MemcmpC (Memcmp 2 (MBytes (bs [1; 2; 3])))); (MemcmpC (Memcmp 10 (MBytes (bs [5; 6; 7])))); (Datasize 100)]))) then Done 7 else
  if negb (contains_filter r1 (AFilter [] (Some 1001) (Some [(MemcmpC (Memcmp 10 (MBytes (bs [5; 6; 7])))); (MemcmpC (Memcmp 2 (MBytes (bs [1; 2; 3])))); (Datasize 100)]))) then Done 8 else
  if negb (contains_filter r1 (AFilter [] (Some 1001) (Some [(MemcmpC (Memcmp 10 (MBytes (bs [5; 6; 7])))); (MemcmpC (Memcmp 2 (MBytes (bs [1; 2; 3])))); (MemcmpC (Memcmp 20 (MBytes (bs [4; 5; 6])))); (Datasize 100)]))) then Done 9 else
  Done 0.
Example test_program_that_partial_filtering_2_passes : test_program_that_partial_filtering_2 = Done 0.
Proof. vm_compute. reflexivity. Qed.

(** common/src/except_filter_store.rs 45-169: 12 assertions. *)
Definition test_except_filter_store : res N :=
  let r1 := fstore_empty in
  r1 <- add_filters ET r1 [(AFilter [] (Some 1001) None); (AFilter [] (Some 1002) None)] ;;
  if negb (except_contains r1 (AFilter [] (Some 1003) None)) then Done 1 else
  if negb (except_contains r1 (AFilter [] (Some 1004) (Some [(Datasize 100)]))) then Done 2 else
  if negb (except_contains r1 (AFilter [] (Some 1005) (Some [(Datasize 200); (MemcmpC (Memcmp 100 (MBytes (bs [1; 2; 3]))))]))) then Done 3 else
  if negb (negb (except_contains r1 (AFilter [] (Some 1001) None))) then Done 4 else
  if negb (negb (except_contains r1 (AFilter [] (Some 1001) (Some [(Datasize 100)])))) then Done 5 else
  if negb (negb (except_contains r1 (AFilter [] (Some 1001) (Some [(Datasize 200); (MemcmpC (Memcmp 100 (MBytes (bs [1; 2; 3]))))])))) then Done 6 else
  if negb (negb (except_contains r1 (AFilter [] (Some 1002) None))) then Done 7 else
  if negb (negb (except_contains r1 (AFilter [] (Some 1002) (Some [(Datasize 100)])))) then Done 8 else
  if negb (negb (except_contains r1 (AFilter [] (Some 1002) (Some [(Datasize 200); (MemcmpC (Memcmp 100 (MBytes (bs [1; 2; 3]))))])))) then Done 9 else
  let r2 := Acct 1006 (Account 1234 (DRaw (bs [5; 6; 7])) 1007 false 873872) 1 0 in
  r3 <- except_satisfies ET r1 r2 ;;
  if negb r3 then Done 10 else
  let r4 := Acct 1008 (Account 1234 (DRaw (bs [5; 6; 7])) 1001 false 873872) 1 0 in
  r5 <- except_satisfies ET r1 r4 ;;
  if negb (negb r5) then Done 11 else
  let r6 := Acct 1009 (Account 1234 (DRaw (bs [5; 6; 7])) 1002 false 873872) 1 0 in
  r7 <- except_satisfies ET r1 r6 ;;
  if negb (negb r7) then Done 12 else
  Done 0.
Example test_except_filter_store_passes : test_except_filter_store = Done 0.
Proof. vm_compute. reflexivity. Qed.

Definition str_4 : bytes := txt "[
        {
            ""programId"": ""4MangoMjqJ2firMokCjjGgoK8d4MXcrgL7XJaL3w6fVg"",
            ""filters"": [
                {
                    ""datasize"": 200
                }
            ]
        },
        {
            ""programId"": ""4MangoMjqJ2firMokCjjGgoK8d4MXcrgL7XJaL3w6fVg"",
            ""filters"": [
            {
                ""memcmp"": {
                ""offset"": 100,
                ""data"": {
                        ""bytes"": [
                        115,
                        101,
                        114,
                        117,
                        109,
                        5,
                        0,
                        0,
                        0,
                        0,
                        0,
                        0,
                        0
                        ]
                    }
                }
            }
            ]
        },
        {
            ""programId"": ""4MangoMjqJ2firMokCjjGgoK8d4MXcrgL7XJaL3w6fVg""
        },
        {
            ""programId"": ""4MangoMjqJ2firMokCjjGgoK8d4MXcrgL7XJaL3w6fVg"",
            ""filters"": [
                {
                    ""datasize"": 200
                },
                {
                    ""memcmp"": {
                    ""offset"": 100,
                    ""data"": {
                        ""bytes"": [
                        115,
                        101,
                        114,
                        117,
                        109,
                        5,
                        0,
                        0,
                        0,
                        0,
                        0,
                        0,
                        0
                        ]
                    }
                    }
                }
            ]
        },
        {
            ""accounts"": [""4MangoMjqJ2firMokCjjGgoK8d4MXcrgL7XJaL3w6fVg"", ""srmqPvymJeFKQ4zGQed1GFppgkRHL9kaELCbyksJtPX""]
        }
        ]
        ".
Definition str_5 : bytes := txt "4MangoMjqJ2firMokCjjGgoK8d4MXcrgL7XJaL3w6fVg".
Definition str_6 : bytes := txt "srmqPvymJeFKQ4zGQed1GFppgkRHL9kaELCbyksJtPX".
(** common/src/account_filter.rs 206-352: 5 assertions. *)
Definition test_accounts_filters_deserialization : res N :=
  r1 <- filters_from_str (str_4) ;;
  r2 <- unwrap r1 ;;
  r3 <- unwrap (nth_error r2 0) ;;
  r4 <- unwrap (pk_parse (str_5)) ;;
  if negb (eq_f r3 (AFilter [] (Some r4) (Some [(Datasize 200)]))) then Done 1 else
  r5 <- unwrap (nth_error r2 1) ;;
  r6 <- unwrap (pk_parse (str_5)) ;;
  if negb (eq_f r5 (AFilter [] (Some r6) (Some [(MemcmpC (Memcmp 100 (MBytes (bs [115; 101; 114; 117; 109; 5; 0; 0; 0; 0; 0; 0; 0]))))]))) then Done 2 else
  r7 <- unwrap (nth_error r2 2) ;;
  r8 <- unwrap (pk_parse (str_5)) ;;
  if negb (eq_f r7 (AFilter [] (Some r8) None)) then Done 3 else
  r9 <- unwrap (nth_error r2 3) ;;
  r10 <- unwrap (pk_parse (str_5)) ;;
  if negb (eq_f r9 (AFilter [] (Some r10) (Some [(Datasize 200); (MemcmpC (Memcmp 100 (MBytes (bs [115; 101; 114; 117; 109; 5; 0; 0; 0; 0; 0; 0; 0]))))]))) then Done 4 else
  r11 <- unwrap (nth_error r2 4) ;;
  r12 <- unwrap (pk_parse (str_5)) ;;
  r13 <- unwrap (pk_parse (str_6)) ;;
  if negb (eq_f r11 (AFilter [r12; r13] None None)) then Done 5 else
  Done 0.
Example test_accounts_filters_deserialization_passes : test_accounts_filters_deserialization = Done 0.
Proof. vm_compute. reflexivity. Qed.

Definition str_7 : bytes := txt "9BoFW2JxdCDodsa2zfxAZpyT9yiTgSYEcHdNSuA7s5Sf".
Definition str_8 : bytes := txt "CYGfrBJB9HgLf9iZyN4aH5HvUAi2htQ4MjPxeXMf4Egn".
Definition str_9 : bytes := txt "7UYk5yhrQtFbZV2bLX1gtqN7QdU9xpBMyAk7tFgoTatk".
Definition str_10 : bytes := txt "2PRxDHabumHHv6fgcrcyvHsV8ENkWdEph27vhpbSMLn3".
Definition str_11 : bytes := txt "CtJ8EkqLmeYyGB8s4jevpeNsvmD4dxVR2krfsDLcvV8Y".
Definition str_12 : bytes := txt "3pxTFXBJbTAtHLCgSWjeasngGCi4ohV16F4fDnd4Xh81".
Definition str_13 : bytes := txt "GVXRSBjFk6e6J3NbVPXohDJetcTjaeeuykUpbQF8UoMU".
Definition str_14 : bytes := txt "2dAsTriwLdgmGt7N6Dkq1iUV6pGhSUUwqqePp4qorzor".
Definition str_15 : bytes := txt "FnVC5oSSdnCHfN5W7xbu74HbxXF3Kmy63gUKWdaaZwD7".
Definition str_16 : bytes := txt "6ABgrEZk8urs6kJ1JNdC1sspH5zKXRqxy8sg3ZG2cQps".
Definition str_17 : bytes := txt "7moA1i5vQUpfDwSpK6Pw9s56ahB7WFGidtbL2ujWrVvm".
Definition str_18 : bytes := txt "Bt1hEbY62aMriY1SyQqbeZbm8VmSbQVGBFzSzMuVNWzN".
Definition str_19 : bytes := txt "4ivThkX8uRxBpHsdWSqyXYihzKF3zpRGAUCqyuagnLoV".
Definition str_20 : bytes := txt "D8UUgr8a3aR3yUeHLu7v8FWK7E8Y5sSU7qrYBXUJXBQ5".
Definition str_21 : bytes := txt "7fMKXU6AnatycNu1CAMndLkKmDPtjZaPNZSJSfXR92Ez".
Definition str_22 : bytes := txt "JBu1AL4obBcCMqKBBxhpWCNUt136ijcuMZLFvTP7iWdB".
Definition str_23 : bytes := txt "AnLf8tVYCM816gmBjiy8n53eXKKEDydT5piYjjQDPgTB".
Definition str_24 : bytes := txt "4dusJxxxiYrMTLGYS6cCAyu3gPn2xXLBjS7orMToZHi1".
Definition str_25 : bytes := txt "hnkVVuJTRZvX2SawUsecZz2eHJP2oGMdnhdDJa33KSY".
Definition str_26 : bytes := txt "AFrYBhb5wKQtxRS9UA9YRS4V3dwFm7SqmS6DHKq6YVgo".
Definition str_27 : bytes := txt "Ag7RdWj5t3U9avU4XKAY7rBbGDCNz456ckNmcpW1aHoE".
Definition str_28 : bytes := txt "AwpALBTXcaz2t6BayXvQQu7eZ6h7u2UNRCQNmD9ShY7Z".
Definition str_29 : bytes := txt "8ihFLu5FimgTQ1Unh4dVyEHUGodJ5gJQCrQf4KUVB9bN".
Definition str_30 : bytes := txt "AV67ufGVkHrPKXdeupXE2MXdw3puq7xnkPNrTxGP3suU".
Definition str_31 : bytes := txt "3uZCMHY3vnNJspSVk6TvE9qmb4iYVbrEWFQ71uCE5hFR".
Definition str_32 : bytes := txt "5wRjzrwWZG3af3FE26ZrRj3s8A3BVNyeJ9Pt9Uf2ogdf".
Definition str_33 : bytes := txt "2qHkYmAn7HNtAGw45hQQkRthDDNiyVyVfDJDaw6iSoRm".
Definition str_34 : bytes := txt "2FGoL9PNhNGpduRKLsTa4teRaX3vfarXAc1an2KyXxQm".
Definition str_35 : bytes := txt "4BA3RcS4zE32WWgp49vvvre2t6nXY1W1kMyKZxeeuUey".
Definition str_36 : bytes := txt "Bfz5q3cDywSSjnWb9oXeQZqYzHwqFGp75mm34eYCPNEA".
Definition str_37 : bytes := txt "H6ARHf6YXhGYeQfUzQNGk6rDNnLBQKrenN712K4AQJEG".
Definition str_38 : bytes := txt "79wm3jjcPr6RaNQ4DGvP5KxG1mNd3gEBsg6FsNVFezK4".
Definition str_39 : bytes := txt "Gnt27xtC473ZT2Mw5u8wZ68Z3gULkSTb5DuxJy7eJotD".
Definition str_40 : bytes := txt "g6eRCbboSwK4tSWngn773RCMexr1APQr4uA9bGZBYfo".
Definition str_41 : bytes := txt "91Sfpm86H7ZgngdGfAiVJTNbg42CXBPiurruf29kinMh".
Definition str_42 : bytes := txt "nrYkQQQur7z8rYTST3G9GqATviK5SxTDkrqd21MW6Ue".
Definition str_43 : bytes := txt "E4v1BBgoso9s64TQvmyownAVJbhbEPGyzA3qn4n46qj9".
Definition str_44 : bytes := txt "EzBoEHzYSx37RULrQCh756kNcA7iLrmGesxqpzSwo4v3".
Definition str_45 : bytes := txt "3vxLXJqLqF3JG5TCbYycbKWRBbCJQLxQmBGCkyqEEefL".
Definition str_46 : bytes := txt "7yyaeuJ1GGtVBLT2z2xub5ZWYKaNhF28mj1RdV4VDFVk".
Definition str_47 : bytes := txt "BeAZ81UvesnJR7VVGNzRQGKFHrnxm77x5ozesC1pTjrY".
Definition str_48 : bytes := txt "H5hokc8gcKezGcwbqFbss99QrpA3WxsRfqGYCm6F1EBy".
Definition str_49 : bytes := txt "ELrhqYY3WjLRnLwWt3u7sMykNc87EScEAsyCyrDDSAXv".
Definition str_50 : bytes := txt "FYghp2wYzq36yqXYd8D3Lu6jpMWETHTtxYDZPXdpppyc".
Definition str_51 : bytes := txt "2sn1w3krTLhW4EDbLL5etf8NjwSHMhmK6CJmWYpkMoXL".
Definition str_52 : bytes := txt "Fi8vncGpNKbq62gPo56G4toCehWNy77GgqGkTaAF5Lkk".
Definition str_53 : bytes := txt "9puoc5B1ioxkKMMx1rs1M5kLWhCDrPawkCnTkk44jjCs".
Definition str_54 : bytes := txt "7KbMt281Rjx3E3MU7GSEEBfByhNBxfU1dZbTimGaKCfV".
Definition str_55 : bytes := txt "7tV5jsyNUg9j1AARv56b7AirdpLBecibRXLEJtycEgpP".
Definition str_56 : bytes := txt "ARjaHVxGCQfTvvKjLd7U7srvk6orthZSE6uqWchCczZc".
Definition str_57 : bytes := txt "E5AmUKMFgxjEihVwEQNrNfnri5EexYHSBC4HkicVtfxG".
Definition str_58 : bytes := txt "GoXhYTpRF4vs4gx48S7XhbaukVbJXVycXimhGfzWNGLF".
Definition str_59 : bytes := txt "BWt1ABFexE3gEKRFGZmMo2DFLgAU8SUJc4NZi1t3jvUP".
Definition str_60 : bytes := txt "5BocsfuYVNzu5huEbx3jreueTPzsKaGQMj9Xwb5enMP".
Definition str_61 : bytes := txt "7n7TafVxb1j3Zwh2sX3s8k3eXg7UHp5VZnb9uhhCLvy9".
Definition str_62 : bytes := txt "EA1eJqandDNrw627mSA1Rrp2xMUvWoJBz2WwQxZYP9YX".
Definition str_63 : bytes := txt "EN41nj1uHaTHmJJLPTerwVu2P9r5G8pMiNvfNX5V2PtP".
Definition str_64 : bytes := txt "DvfMMNzFTvPofaEzdt3ez4U6ziRJcMCm7LGGKskznThz".
Definition str_65 : bytes := txt "HDwpKCNpB9JvcGrZv6TWcXjFvzxxfzq7ci6kQ1Kv8FMY".
Definition str_66 : bytes := txt "GgpDLzVuUFLyNzNn6oVVEVxbmkdp2xkjX8BrzaFFt3yA".
Definition str_67 : bytes := txt "GFJjJmm7jTDb7WEM4TkYdA9eAEeJGK1t73tcdDNeZLGT".
Definition str_68 : bytes := txt "CeQ7wj43PJ28EXU1QVNMPxmwrg955KejYD68bMYWTvAp".
Definition str_69 : bytes := txt "27Nuo9hEVSVrrUyQ83NPnuDR4ZSE8KBb3xiU1XeaBVwL".
Definition str_70 : bytes := txt "CcyCcZyvfEkBUngS7KytFPWKWSrpDfmHx81aqAtgS9oC".
Definition str_71 : bytes := txt "2JAg3Rm6TmQ3gSYgUCCyZ9bCQKThD9jxHCN6U2ByTPMb".
Definition str_72 : bytes := txt "Dj1qPXjnWWMkuPiq4Y51JNvSkCBqU38P541Te2ugqYpD".
Definition str_73 : bytes := txt "Ed3EJ3jxXWGgDAkWLXfGojStQ7g1SbYNQGhetMSm6PKb".
Definition str_74 : bytes := txt "8JK7S6h5FktYXq4wC75WeyNFWZpa1jMNXNtTNuy26ixy".
Definition str_75 : bytes := txt "2mBnnBywAuMwH5FhH27UUFyDGk7J77m5LcKK4VtmwJQi".
Definition str_76 : bytes := txt "Fb5BfdB7zk2zfWfqgpRtRQbYSYERASsBjz213FaT461F".
Definition str_77 : bytes := txt "2oxZZ3YXaVhbZmtzagGooewBAofyVbBTzayAD9UR1eBh".
Definition str_78 : bytes := txt "3BAKsQd3RuhZKES2DGysMhjBdwjZYKYmxRqnSMtZ4KSN".
Definition str_79 : bytes := txt "BWMbNAMVkz197EsnhZ3rHCJAB1BYgaQxHaDzjeVvgXdk".
Definition str_80 : bytes := txt "Gi8KdURhXWvsRvDFHpqy1gNfnnYuTsWexQvDpP9711id".
Definition str_81 : bytes := txt "EkKZwBeKWPvhraYERfUNr2fdh1eazrbTrQXYkRZs24XB".
Definition str_82 : bytes := txt "9UPokT1qLN2PVMxGNSYnRnYNgRRJTwr9dzLctFFZQFa2".
Definition str_83 : bytes := txt "8CvwxZ9Db6XbLD46NZwwmVDZZRDy7eydFcAGkXKh9axa".
Definition str_84 : bytes := txt "5x2sfymw7CcrWx6WvZ5UV7Bg1iZTXbwh1XUhxKqhJqni".
Definition str_85 : bytes := txt "DkbVbMhFxswS32xnn1K2UY4aoBugXooBTxdzkWWDWRkH".
Definition str_86 : bytes := txt "CmHpRnmd8h6kH8ogwLuihKnGYJvaS2PdXNjBt2JhFT5w".
Definition str_87 : bytes := txt "FALKx6CxTcwzpTdihdR7ZuK3Wd2H2aEvCNBS4K8UfPxe".
Definition str_88 : bytes := txt "AYhLYoDr6QCtVb5n1M5hsWLG74oB8VEz378brxGTnjjn".
Definition str_89 : bytes := txt "8PhnCfgqpgFM7ZJvttGdBVMXHuU4Q23ACxCvWkbs1M71".
Definition str_90 : bytes := txt "JCKa72xFYGWBEVJZ7AKZ2ofugWPBfrrouQviaGaohi3R".
Definition str_91 : bytes := txt "FsruqicZDGnCnm7dRthjL5eFrTmaNRkkomxhPJQP2kdu".
Definition str_92 : bytes := txt "FGZCgVhVGqzfWnmJFP9Hx4BvGvnFApEp1dM2whzXvg1Z".
Definition str_93 : bytes := txt "YFzPfYrMTWPZEhhvq5QyHEu5otDrQYVtfxzRbkTHQvd".
Definition str_94 : bytes := txt "4hgruY5SXYRHSrJFBjX4DFf39ef2wgYGGasjrUtwS9S1".
Definition str_95 : bytes := txt "2KajVpMkF3Z53MgTgo7dDh23av6xWKgKssbtjogdY7Vu".
Definition str_96 : bytes := txt "72h8rWaWwfPUL36PAFqyQZU8RT1V3FKG7Nc45aK89xTs".
Definition str_97 : bytes := txt "6QNusiQ1g7fKierMQhNeAJxfLXomfcAX3tGRMwxfESsw".
Definition str_98 : bytes := txt "74fKpZ1NFfusLacyVzQdMXXawe9Dr1Kz8Yw1cw12QQ3y".
Definition str_99 : bytes := txt "BEhRuJZiKwTdVTsGYjbHRh9RmGbKBtT6xo7yPqxLiSSY".
Definition str_100 : bytes := txt "3NnxQvDcZXputNMxaxsGvqiKpqgPfSYXpNigZNFcknmD".
Definition str_101 : bytes := txt "8QCdRwLp5CX2XYVaKX3GFxsbc8n7M2xEtMXyAa8tL7r3".
Definition str_102 : bytes := txt "H6Wvvx5dpt8yGdwsqAsz9WDkT43eQUHwAiafDvbcTQoQ".
Definition str_103 : bytes := txt "28dSAygC8Vqzbm5r7f3mPnQ6vKVqXkjzoXD9SVpi75jV".
Definition str_104 : bytes := txt "5jWUncPNBMZJ3sTHKmMLszypVkoRK6bfEQMQUHweeQnh".
Definition str_105 : bytes := txt "DFizHnakzudcEfz4YKrsxQsRADgUMc6ifaMs3wU9pBSV".
Definition str_106 : bytes := txt "4RNVNS8EZWwkYgNeRV4A75oScC3afD7cWV6VLywRcKik".
Definition str_107 : bytes := txt "AmFXLH3jbcQNqgJjVuMZCeiaU2HmrW1UwMTWR5wU4ijd".
Definition str_108 : bytes := txt "DG5EXd99EfnMFXqVXjciWi5HuXHUKdwkQ2WCncEsCeKW".
Definition str_109 : bytes := txt "9zH66LpNcwBausdXLT765dgyLZSiTGUno22orC6Q3AFT".
Definition str_110 : bytes := txt "9LezACAkFsv78P7nBJEzi6QeF9h1QF8hGx2LRN7u9Vww".
Definition str_111 : bytes := txt "6nh2KwhGF8Tott22smj2E3G1R15iXhBrL7Lx6vKgdPFK".
Definition str_112 : bytes := txt "4E17F3BxtNVqzVsirxguuqkpYLtFgCR6NfTpccPh82WE".
Definition str_113 : bytes := txt "3FFGnQWo7LH5qHK96yXFxRzGL7wB3BZqJpW25rk6xZkP".
Definition str_114 : bytes := txt "B2na8Awyd7cpC59iEU43FagJAPLigr3AP3s38KM982bu".
Definition str_115 : bytes := txt "9Lyhks5bQQxb9EyyX55NtgKQzpM4WK7JCmeaWuQ5MoXD".
Definition str_116 : bytes := txt "CXMRrGEseppLPmzYJsx5vYwTkaDEag4A9LJvgrAeNpF".
Definition str_117 : bytes := txt "G8KnvNg5puzLmxQVeWT2cRHCm1XmurbWGG9B8Bze6mav".
Definition str_118 : bytes := txt "HKm7iBQw488qHyXYh5wpqKnMpvbu3TaH4wVWf52i4d8".
Definition str_119 : bytes := txt "8xdpZNtxfWY96sKH6LBmDbRYDhMqmujuXRnvr9xDF9mt".
Definition str_120 : bytes := txt "4WeAXG1V8QTtt3T9ao6LkQa8m1AuwRcY8YLvVcabiuby".
Definition str_121 : bytes := txt "H87FfmHABiZLRGrDsXRZtqq25YpARzaokCzL1vMYGiep".
Definition str_122 : bytes := txt "AuqKXU1Nb5XvRxr5A4vRBLnnSJrdujNJV7HWsfj4KBWS".
Definition str_123 : bytes := txt "DcM7ufYEveXMfB1HQru1jHh7td6DPxgDDJRL8LR79gMb".
Definition str_124 : bytes := txt "27BrDDYtv9NDQCALCNnDqe3BqjYkgiaQwKBbyqCA8p8B".
Definition str_125 : bytes := txt "8BnEgHoWFysVcuFFX7QztDmzuH8r5ZFvyP3sYwn1XTh6".
Definition str_126 : bytes := txt "6wD9zcNZi2VpvUB8dnEsF242Gf1tn6qNhLF2UZ3w9MwD".
Definition str_127 : bytes := txt "Do9Xu1dvgZukExvRLHsnH8cHzjMrhrGxY81ukEudm4XX".
Definition str_128 : bytes := txt "9FjM1wHvGg2ZZaB3XyRsYELoQE7iD6uwHXizQUDKRYff".
Definition str_129 : bytes := txt "BqApFW7DwXThCDZAbK13nbHksEsv6YJMCdj58sJmRLdy".
Definition str_130 : bytes := txt "3wueUtibiTVWJZoL1WhphgDw48r9LLzUriT1a4CnZfGG".
Definition str_131 : bytes := txt "51Tk5PRCwvz5L3Z8EGw3HpW9YMLMGwyqRiDbNV4T1GXi".
Definition str_132 : bytes := txt "6yBKgj4PZK2sShV2e8rKDc8EArsvScmhLm328iKasBvh".
Definition str_133 : bytes := txt "Dq2eptabWaGfFm6QezfX9BzfTuWA58jXhwXMHUnfuUe8".
Definition str_134 : bytes := txt "CsB4XjwH4uZRjRXEXRBFJ3hi3mb9jujzRCW7NXg7TRtX".
Definition str_135 : bytes := txt "HKEJCi2gVDWGfUB7YufNtJjyZiBgM9KZk9tgRE1r3RsX".
Definition str_136 : bytes := txt "3QDSfdXSbUhGFe6K4EZbasfpyUTndAzkkLdX9HGpRbB9".
Definition str_137 : bytes := txt "HCaq6dL3DJzKyWEeSCCDy9NdKFRL56Ad7G4bSVVMRchr".
Definition str_138 : bytes := txt "CgPg6FRyerP6esjvadjdAJCKboLJzbu2ihWgjquHdAvn".
Definition str_139 : bytes := txt "6z1KcPcBnrzebgYjHwVTzu6VgcxY6niLfo3dxF1n2xSx".
Definition str_140 : bytes := txt "BbJgE7HZMaDp5NTYvRh5jZSkQPVDTU8ubPFtpogUkEj4".
Definition str_141 : bytes := txt "4Ymax5Tmk7LACxDtPPFHB4w89557era7wyxodUBqd4fW".
Definition str_142 : bytes := txt "8nA9AqeGsviExkDZChaviW4mGwmdw6GYQAcUYCrszj42".
Definition str_143 : bytes := txt "Hs97TCZeuYiJxooo3U73qEHXg3dKpRL4uYKYRryEK9CF".
Definition str_144 : bytes := txt "Dgt13dmzN6cZFgGE3hjfm4VVFE7pxCL2GeTmxbz4fmfA".
Definition str_145 : bytes := txt "2BtDHBTCTUxvdur498ZEcMgimasaFrY5GzLv8wS8XgCb".
Definition str_146 : bytes := txt "HvRdVui29hRwToAPMEfQJY795EC1XyW2ZoWvuSmgqq7v".
Definition str_147 : bytes := txt "5EKbLBd12TVUUSh1WH4jE884S1XaikSga7pjMNA8jnxD".
Definition str_148 : bytes := txt "Cop9Lvri1yYEmV8fWuG6i7EAJ2RdPynU66ZrhM8kGH9V".
Definition str_149 : bytes := txt "iAHbTAWfvM269DnnzzQgMocMZLV8PnUoNF7g33i95dR".
Definition str_150 : bytes := txt "DZjbn4XC8qoHKikZqzmhemykVzmossoayV9ffbsUqxVj".
Definition str_151 : bytes := txt "H5uQWZrwRm3EABCzYRmDmti5UnMTUP5ifxsPHrJHpZdC".
Definition str_152 : bytes := txt "Cn6Fu2MfaE6sahWwa8HGZQuKuLD6Fd8GJ784Tv7UtdRu".
Definition str_153 : bytes := txt "7S2fEFvce5n9hGpjp9jd8JRfuBngcDJfykygeqqzEwmq".
Definition str_154 : bytes := txt "5U2Vzi7Lwvyzw7hoHKpAZUD2SPfmsYfydRZrejmquso2".
Definition str_155 : bytes := txt "H6rrYK3SUHF2eguZCyJxnSBMJqjXhUtuaki6PHiutvum".
Definition str_156 : bytes := txt "EaXdHx7x3mdGA38j5RSmKYSXMzAFzzUXCLNBEDXDn1d5".
Definition str_157 : bytes := txt "BBRvF4etMRitpSwFdXSMzPg547Lxnr3G95aQtBhMiWhB".
Definition str_158 : bytes := txt "BAPLDQS9wa5BwzEuWeA1CMKAxjASieFzgSWW9nEJdMCc".
Definition str_159 : bytes := txt "3PoEWQNTCaoDsBH32Rmp9yqbgFtg4Z4ik13kkRyN2CQf".
Definition str_160 : bytes := txt "6NfwhGjfrE4dp7XFut2kYcUQsH4P4AJVSoe9cLVM2z43".
Definition str_161 : bytes := txt "FbwncFP5bZjdx8J6yfDDTrCmmMkwieuape1enCvwLG33".
Definition str_162 : bytes := txt "CK1X54onkDCqVnqY7hnvhcT7EosnjiLTwPBXAMLxkA2A".
Definition str_163 : bytes := txt "kB3BTG6Pz3W7JzKQLHyrAZaFk1LVmeeXRP4ZiCKUaA3".
Definition str_164 : bytes := txt "63XwffQkMcNqEacDNhixmBxnydkRE3uigV7VoLNfqh9k".
Definition str_165 : bytes := txt "CFxJ8jyFQinvFSL6CNQCLWyPnbeYcCpCWmfPFC43qMkp".
Definition str_166 : bytes := txt "21QRUCjxuXC9GAyTGvfYyumWYTqCtewM3ZcCfFDTYi5L".
Definition str_167 : bytes := txt "ASUyMMNBpFzpW3zDSPYdDVggKajq1DMKFFPK1JS9hoSR".
Definition str_168 : bytes := txt "FyyGTHKJBf1nGHHL44HE91EcGRFg2Y7XazA3SjQpcU3i".
Definition str_169 : bytes := txt "CVwFcGuWYH1chdbR988K7ppbwVLErqfdreFCPsg9ttnq".
Definition str_170 : bytes := txt "CDm1Uaos4vWPXezgEobUarGJ6ddKCywvFp8XLcNSqzU9".
Definition str_171 : bytes := txt "4P4pgJC7omZWRL4qmngUMW3ETTr2yLXhgaoAPpSp8TWG".
Definition str_172 : bytes := txt "3rQH87K3UfrDjbjSktHy7EwQHvX4BoRu3Py52D25gKSS".
Definition str_173 : bytes := txt "CCepXEQxo8eTqCGtRHXrSnZdhCEQjQeEW3M85AH9skMJ".
Definition str_174 : bytes := txt "GqEejRjBRnZTZg417SUmSwpJ4nhTK5E8Ey8JeVPd3cY5".
Definition str_175 : bytes := txt "2m7ZLEKtxWF29727DSb5D91erpXPUY1bqhRWRC3wQX7u".
Definition str_176 : bytes := txt "G4BZUKuUy1qkjtG3xZN8x4tXoJrjPhuxtU5t2HHgMaZe".
Definition str_177 : bytes := txt "CC9VYJprbxacpiS94tPJ1GyBhfvrLQbUiUSVMWvFohNW".
Definition str_178 : bytes := txt "6XsUQYAkKSy4mSQfMxYqpF4U7X3JsPDbG4vRQQEvCPb6".
Definition str_179 : bytes := txt "6YSbESJWKwtC4x7rBdHbcYSVEejCWo2sZkapKQE8Y289".
Definition str_180 : bytes := txt "NiWvcoCvqmUKSf1Avey5KWBXa5oAm6h7LWv4sqyCbBn".
Definition str_181 : bytes := txt "AZUaEDdGXiryUbAi56MMrn1Em8t2dSy5mvq5SxX6S1np".
Definition str_182 : bytes := txt "AgCBUZ6UMWqPLftTxeAqpQxtrfiCyL2HgRfmmM6QTfCj".
Definition str_183 : bytes := txt "7AdBcVGejZy3981JfJ8mDywzMqAL31vBpgnD3PpnTpms".
Definition str_184 : bytes := txt "Av8JgExs2LDubedW47Kvw8J47hko45P8TYqiHmtD2Ey6".
Definition str_185 : bytes := txt "5aNxjc8upaPiGvcC9YJ48geiRSQLzGEdeL1zJakLn7t3".
Definition str_186 : bytes := txt "9h4bddiPyfTyTztuyo7mEcpQz3QrR6cSPt1id6UmWj5H".
(** common/src/account_filter.rs 355-594: 1 assertions. *)
Definition workspace_write_your_own_filter : res N :=
  let r1 := ([] : list afilter) in
  r2 <- unwrap (pk_parse (str_5)) ;;
  let r1 := r1 ++ [(AFilter [] (Some r2) None)] in
  r3 <- unwrap (pk_parse (str_7)) ;;
  r4 <- unwrap (pk_parse (str_8)) ;;
  r5 <- unwrap (pk_parse (str_9)) ;;
  r6 <- unwrap (pk_parse (str_10)) ;;
  r7 <- unwrap (pk_parse (str_11)) ;;
  r8 <- unwrap (pk_parse (str_12)) ;;
  r9 <- unwrap (pk_parse (str_13)) ;;
  r10 <- unwrap (pk_parse (str_14)) ;;
  r11 <- unwrap (pk_parse (str_15)) ;;
  r12 <- unwrap (pk_parse (str_16)) ;;
  r13 <- unwrap (pk_parse (str_17)) ;;
  r14 <- unwrap (pk_parse (str_18)) ;;
  r15 <- unwrap (pk_parse (str_19)) ;;
  r16 <- unwrap (pk_parse (str_20)) ;;
  r17 <- unwrap (pk_parse (str_21)) ;;
  r18 <- unwrap (pk_parse (str_22)) ;;
  r19 <- unwrap (pk_parse (str_23)) ;;
  r20 <- unwrap (pk_parse (str_24)) ;;
  r21 <- unwrap (pk_parse (str_25)) ;;
  r22 <- unwrap (pk_parse (str_26)) ;;
  r23 <- unwrap (pk_parse (str_27)) ;;
  r24 <- unwrap (pk_parse (str_28)) ;;
  r25 <- unwrap (pk_parse (str_29)) ;;
  r26 <- unwrap (pk_parse (str_30)) ;;
  r27 <- unwrap (pk_parse (str_31)) ;;
  r28 <- unwrap (pk_parse (str_32)) ;;
  r29 <- unwrap (pk_parse (str_33)) ;;
  r30 <- unwrap (pk_parse (str_34)) ;;
  r31 <- unwrap (pk_parse (str_35)) ;;
  r32 <- unwrap (pk_parse (str_36)) ;;
  r33 <- unwrap (pk_parse (str_37)) ;;
  r34 <- unwrap (pk_parse (str_38)) ;;
  r35 <- unwrap (pk_parse (str_39)) ;;
  r36 <- unwrap (pk_parse (str_40)) ;;
  r37 <- unwrap (pk_parse (str_41)) ;;
  r38 <- unwrap (pk_parse (str_42)) ;;
  r39 <- unwrap (pk_parse (str_43)) ;;
  r40 <- unwrap (pk_parse (str_44)) ;;
  r41 <- unwrap (pk_parse (str_45)) ;;
  r42 <- unwrap (pk_parse (str_46)) ;;
  r43 <- unwrap (pk_parse (str_47)) ;;
  r44 <- unwrap (pk_parse (str_48)) ;;
  r45 <- unwrap (pk_parse (str_49)) ;;
  r46 <- unwrap (pk_parse (str_50)) ;;
  r47 <- unwrap (pk_parse (str_51)) ;;
  r48 <- unwrap (pk_parse (str_52)) ;;
  r49 <- unwrap (pk_parse (str_53)) ;;
  r50 <- unwrap (pk_parse (str_54)) ;;
  r51 <- unwrap (pk_parse (str_55)) ;;
  r52 <- unwrap (pk_parse (str_56)) ;;
  r53 <- unwrap (pk_parse (str_57)) ;;
  r54 <- unwrap (pk_parse (str_58)) ;;
  r55 <- unwrap (pk_parse (str_59)) ;;
  r56 <- unwrap (pk_parse (str_60)) ;;
  r57 <- unwrap (pk_parse (str_61)) ;;
  r58 <- unwrap (pk_parse (str_62)) ;;
  r59 <- unwrap (pk_parse (str_63)) ;;
  r60 <- unwrap (pk_parse (str_64)) ;;
  r61 <- unwrap (pk_parse (str_65)) ;;
  r62 <- unwrap (pk_parse (str_66)) ;;
  r63 <- unwrap (pk_parse (str_67)) ;;
  r64 <- unwrap (pk_parse (str_68)) ;;
  r65 <- unwrap (pk_parse (str_69)) ;;
  r66 <- unwrap (pk_parse (str_70)) ;;
  r67 <- unwrap (pk_parse (str_71)) ;;
  r68 <- unwrap (pk_parse (str_72)) ;;
  r69 <- unwrap (pk_parse (str_73)) ;;
  r70 <- unwrap (pk_parse (str_74)) ;;
  r71 <- unwrap (pk_parse (str_75)) ;;
  r72 <- unwrap (pk_parse (str_76)) ;;
  r73 <- unwrap (pk_parse (str_77)) ;;
  r74 <- unwrap (pk_parse (str_78)) ;;
  r75 <- unwrap (pk_parse (str_79)) ;;
  r76 <- unwrap (pk_parse (str_80)) ;;
  r77 <- unwrap (pk_parse (str_81)) ;;
  r78 <- unwrap (pk_parse (str_82)) ;;
  r79 <- unwrap (pk_parse (str_83)) ;;
  r80 <- unwrap (pk_parse (str_84)) ;;
  r81 <- unwrap (pk_parse (str_85)) ;;
  r82 <- unwrap (pk_parse (str_86)) ;;
  r83 <- unwrap (pk_parse (str_87)) ;;
  r84 <- unwrap (pk_parse (str_88)) ;;
  r85 <- unwrap (pk_parse (str_89)) ;;
  r86 <- unwrap (pk_parse (str_90)) ;;
  r87 <- unwrap (pk_parse (str_91)) ;;
  r88 <- unwrap (pk_parse (str_92)) ;;
  r89 <- unwrap (pk_parse (str_93)) ;;
  r90 <- unwrap (pk_parse (str_94)) ;;
  r91 <- unwrap (pk_parse (str_95)) ;;
  r92 <- unwrap (pk_parse (str_96)) ;;
  r93 <- unwrap (pk_parse (str_97)) ;;
  r94 <- unwrap (pk_parse (str_98)) ;;
  r95 <- unwrap (pk_parse (str_99)) ;;
  r96 <- unwrap (pk_parse (str_100)) ;;
  r97 <- unwrap (pk_parse (str_101)) ;;
  r98 <- unwrap (pk_parse (str_102)) ;;
  r99 <- unwrap (pk_parse (str_103)) ;;
  r100 <- unwrap (pk_parse (str_104)) ;;
  r101 <- unwrap (pk_parse (str_105)) ;;
  r102 <- unwrap (pk_parse (str_106)) ;;
  r103 <- unwrap (pk_parse (str_107)) ;;
  r104 <- unwrap (pk_parse (str_108)) ;;
  r105 <- unwrap (pk_parse (str_109)) ;;
  r106 <- unwrap (pk_parse (str_110)) ;;
  r107 <- unwrap (pk_parse (str_111)) ;;
  r108 <- unwrap (pk_parse (str_112)) ;;
  r109 <- unwrap (pk_parse (str_113)) ;;
  r110 <- unwrap (pk_parse (str_114)) ;;
  r111 <- unwrap (pk_parse (str_115)) ;;
  r112 <- unwrap (pk_parse (str_116)) ;;
  r113 <- unwrap (pk_parse (str_117)) ;;
  r114 <- unwrap (pk_parse (str_118)) ;;
  r115 <- unwrap (pk_parse (str_119)) ;;
  r116 <- unwrap (pk_parse (str_120)) ;;
  r117 <- unwrap (pk_parse (str_121)) ;;
  r118 <- unwrap (pk_parse (str_122)) ;;
  r119 <- unwrap (pk_parse (str_123)) ;;
  r120 <- unwrap (pk_parse (str_124)) ;;
  r121 <- unwrap (pk_parse (str_125)) ;;
  r122 <- unwrap (pk_parse (str_126)) ;;
  r123 <- unwrap (pk_parse (str_127)) ;;
  r124 <- unwrap (pk_parse (str_128)) ;;
  r125 <- unwrap (pk_parse (str_129)) ;;
  r126 <- unwrap (pk_parse (str_130)) ;;
  r127 <- unwrap (pk_parse (str_131)) ;;
  r128 <- unwrap (pk_parse (str_132)) ;;
  r129 <- unwrap (pk_parse (str_133)) ;;
  r130 <- unwrap (pk_parse (str_134)) ;;
  r131 <- unwrap (pk_parse (str_135)) ;;
  r132 <- unwrap (pk_parse (str_136)) ;;
  r133 <- unwrap (pk_parse (str_137)) ;;
  r134 <- unwrap (pk_parse (str_138)) ;;
  r135 <- unwrap (pk_parse (str_139)) ;;
  r136 <- unwrap (pk_parse (str_140)) ;;
  r137 <- unwrap (pk_parse (str_141)) ;;
  r138 <- unwrap (pk_parse (str_142)) ;;
  r139 <- unwrap (pk_parse (str_143)) ;;
  r140 <- unwrap (pk_parse (str_144)) ;;
  r141 <- unwrap (pk_parse (str_145)) ;;
  r142 <- unwrap (pk_parse (str_146)) ;;
  r143 <- unwrap (pk_parse (str_147)) ;;
  r144 <- unwrap (pk_parse (str_148)) ;;
  r145 <- unwrap (pk_parse (str_149)) ;;
  r146 <- unwrap (pk_parse (str_150)) ;;
  r147 <- unwrap (pk_parse (str_151)) ;;
  r148 <- unwrap (pk_parse (str_152)) ;;
  r149 <- unwrap (pk_parse (str_153)) ;;
  r150 <- unwrap (pk_parse (str_154)) ;;
  r151 <- unwrap (pk_parse (str_155)) ;;
  r152 <- unwrap (pk_parse (str_156)) ;;
  r153 <- unwrap (pk_parse (str_157)) ;;
  r154 <- unwrap (pk_parse (str_158)) ;;
  r155 <- unwrap (pk_parse (str_159)) ;;
  r156 <- unwrap (pk_parse (str_160)) ;;
  r157 <- unwrap (pk_parse (str_161)) ;;
  r158 <- unwrap (pk_parse (str_162)) ;;
  r159 <- unwrap (pk_parse (str_163)) ;;
  r160 <- unwrap (pk_parse (str_164)) ;;
  r161 <- unwrap (pk_parse (str_165)) ;;
  r162 <- unwrap (pk_parse (str_166)) ;;
  r163 <- unwrap (pk_parse (str_167)) ;;
  r164 <- unwrap (pk_parse (str_168)) ;;
  r165 <- unwrap (pk_parse (str_169)) ;;
  r166 <- unwrap (pk_parse (str_170)) ;;
  r167 <- unwrap (pk_parse (str_171)) ;;
  r168 <- unwrap (pk_parse (str_172)) ;;
  r169 <- unwrap (pk_parse (str_173)) ;;
  r170 <- unwrap (pk_parse (str_174)) ;;
  r171 <- unwrap (pk_parse (str_175)) ;;
  r172 <- unwrap (pk_parse (str_176)) ;;
  r173 <- unwrap (pk_parse (str_177)) ;;
  r174 <- unwrap (pk_parse (str_178)) ;;
  r175 <- unwrap (pk_parse (str_179)) ;;
  r176 <- unwrap (pk_parse (str_180)) ;;
  r177 <- unwrap (pk_parse (str_181)) ;;
  r178 <- unwrap (pk_parse (str_182)) ;;
  r179 <- unwrap (pk_parse (str_183)) ;;
  r180 <- unwrap (pk_parse (str_184)) ;;
  r181 <- unwrap (pk_parse (str_185)) ;;
  r182 <- unwrap (pk_parse (str_186)) ;;
  let r1 := r1 ++ [(AFilter [r3; r4; r5; r6; r7; r8; r9; r10; r11; r12; r13; r14; r15; r16; r17; r18; r19; r20; r21; r22; r23; r24; r25; r26; r27; r28; r29; r30; r31; r32; r33; r34; r35; r36; r37; r38; r39; r40; r41; r42; r43; r44; r45; r46; r47; r48; r49; r50; r51; r52; r53; r54; r55; r56; r57; r58; r59; r60; r61; r62; r63; r64; r65; r66; r67; r68; r69; r70; r71; r72; r73; r74; r75; r76; r77; r78; r79; r80; r81; r82; r83; r84; r85; r86; r87; r88; r89; r90; r91; r92; r93; r94; r95; r96; r97; r98; r99; r100; r101; r102; r103; r104; r105; r106; r107; r108; r109; r110; r111; r112; r113; r114; r115; r116; r117; r118; r119; r120; r121; r122; r123; r124; r125; r126; r127; r128; r129; r130; r131; r132; r133; r134; r135; r136; r137; r138; r139; r140; r141; r142; r143; r144; r145; r146; r147; r148; r149; r150; r151; r152; r153; r154; r155; r156; r157; r158; r159; r160; r161; r162; r163; r164; r165; r166; r167; r168; r169; r170; r171; r172; r173; r174; r175; r176; r177; r178; r179; r180; r181; r182] None None)] in
  r183 <- unwrap (pk_parse (str_6)) ;;
  let r1 := r1 ++ [(AFilter [] (Some r183) (Some [(Datasize 3228); (MemcmpC (Memcmp 0 (MBytes (bs [115; 101; 114; 117; 109; 5; 0; 0; 0; 0; 0; 0; 0])))); (MemcmpC (Memcmp 45 (MBytes (bs [91; 23; 199; 200; 106; 110; 115; 159; 175; 23; 81; 129; 131; 99; 233; 79; 144; 139; 243; 112; 4; 206; 109; 63; 188; 241; 151; 189; 210; 245; 31; 28]))))]))] in
  r184 <- filters_from_str (filters_to_string r1) ;;
  r185 <- unwrap r184 ;;
  if negb (eq_fs r185 r1) then Done 1 else
  Done 0.
Example workspace_write_your_own_filter_passes : workspace_write_your_own_filter = Done 0.
Proof. vm_compute. reflexivity. Qed.

(** token_account_storage/src/account_types.rs 278-293: 1 assertions. *)
Definition test_account_serialization : res N :=
  let r1 := TokenAccount TokenP false 1001 0 1002 10 Init None None None None in
  if negb ((lenN (to_bytes r1)) =? 78) then Done 1 else
  Done 0.
Example test_account_serialization_passes : test_account_serialization = Done 0.
Proof. vm_compute. reflexivity. Qed.

(** token_account_storage/tests/token_program_gpa_tests.rs 17-231: 32 assertions. *)
Definition test_gpa_token_account : res N :=
  let r1 := ts_empty in
  let r2 := SplMint None 100 6 true None in
  let r3 := Acct 1001 (Account 1000 (DRaw (pack_mint r2)) spl_token_id false (2 ^ 64 - 1)) 0 0 in
  let r4 := SplMint None 100 6 true None in
  let r5 := Acct 1002 (Account 1000 (DRaw (pack_mint r4)) spl_token_id false (2 ^ 64 - 1)) 0 0 in
  let r6 := SplAccount 1001 1003 100 None Init None 0 None in
  let r7 := SplAccount 1002 1003 200 None Init None 0 None in
  let r8 := SplAccount 1002 1003 300 None Init None 0 None in
  let r9 := Acct 1006 (Account 2039280 (DRaw (pack_account r6)) spl_token_id false (2 ^ 64 - 1)) 0 0 in
  let r10 := Acct 1007 (Account 2039280 (DRaw (pack_account r7)) spl_token_id false (2 ^ 64 - 1)) 0 0 in
  let r11 := Acct 1008 (Account 2039280 (DRaw (pack_account r8)) spl_token_id false (2 ^ 64 - 1)) 0 0 in
  r1 <- ts_init ET r1 r9 ;;
  r1 <- ts_init ET r1 r10 ;;
  r1 <- ts_init ET r1 r11 ;;
  let r12 := SplAccount 1001 1004 400 None Init None 0 None in
  let r13 := SplAccount 1001 1004 500 None Init None 0 None in
  let r14 := Acct 1009 (Account 2039280 (DRaw (pack_account r12)) spl_token_id false (2 ^ 64 - 1)) 0 0 in
  let r15 := Acct 1010 (Account 2039280 (DRaw (pack_account r13)) spl_token_id false (2 ^ 64 - 1)) 0 0 in
  r1 <- ts_init ET r1 r14 ;;
  r1 <- ts_init ET r1 r15 ;;
  let r16 := SplAccount 1001 1005 600 None Init None 0 None in
  let r17 := SplAccount 1001 1005 700 None Init None 0 None in
  let r18 := SplAccount 1002 1005 800 None Init None 0 None in
  let r19 := SplAccount 1002 1005 900 None Init None 0 None in
  let r20 := SplAccount 1001 1005 1000 None Init None 0 None in
  let r21 := Acct 1011 (Account 2039280 (DRaw (pack_account r16)) spl_token_id false (2 ^ 64 - 1)) 0 0 in
  let r22 := Acct 1012 (Account 2039280 (DRaw (pack_account r17)) spl_token_id false (2 ^ 64 - 1)) 0 0 in
  let r23 := Acct 1013 (Account 2039280 (DRaw (pack_account r18)) spl_token_id false (2 ^ 64 - 1)) 0 0 in
  let r24 := Acct 1014 (Account 2039280 (DRaw (pack_account r19)) spl_token_id false (2 ^ 64 - 1)) 0 0 in
  let r25 := Acct 1015 (Account 2039280 (DRaw (pack_account r20)) spl_token_id false (2 ^ 64 - 1)) 0 0 in
  r1 <- ts_init ET r1 r21 ;;
  r1 <- ts_init ET r1 r22 ;;
  r1 <- ts_init ET r1 r23 ;;
  r1 <- ts_init ET r1 r24 ;;
  r1 <- ts_init ET r1 r25 ;;
  r1 <- ts_init ET r1 r3 ;;
  r1 <- ts_init ET r1 r5 ;;
  r26 <- ts_gpa ET r1 spl_token_id (Some [(Datasize 165); (MemcmpC (Memcmp 32 (MBytes (le 32 1003))))]) Processed ;;
  r27 <- unwrap_r r26 ;;
  if negb ((lenN r27) =? 3) then Done 1 else
  if negb (existsb (acct_eqb r9) r27) then Done 2 else
  if negb (existsb (acct_eqb r10) r27) then Done 3 else
  if negb (existsb (acct_eqb r11) r27) then Done 4 else
  r28 <- ts_gpa ET r1 spl_token_id (Some [(Datasize 165); (MemcmpC (Memcmp 32 (MBytes (le 32 1004))))]) Processed ;;
  r29 <- unwrap_r r28 ;;
  if negb ((lenN r29) =? 2) then Done 5 else
  if negb (existsb (acct_eqb r14) r29) then Done 6 else
  if negb (existsb (acct_eqb r15) r29) then Done 7 else
  r30 <- ts_gpa ET r1 spl_token_id (Some [(Datasize 165); (MemcmpC (Memcmp 32 (MBytes (le 32 1005))))]) Processed ;;
  r31 <- unwrap_r r30 ;;
  if negb ((lenN r31) =? 5) then Done 8 else
  if negb (existsb (acct_eqb r21) r31) then Done 9 else
  if negb (existsb (acct_eqb r22) r31) then Done 10 else
  if negb (existsb (acct_eqb r23) r31) then Done 11 else
  if negb (existsb (acct_eqb r24) r31) then Done 12 else
  if negb (existsb (acct_eqb r25) r31) then Done 13 else
  r32 <- ts_gpa ET r1 spl_token_id (Some [(Datasize 165); (MemcmpC (Memcmp 32 (MBytes (le 32 1005)))); (MemcmpC (Memcmp 0 (MBytes (le 32 1001))))]) Processed ;;
  r33 <- unwrap_r r32 ;;
  if negb ((lenN r33) =? 3) then Done 14 else
  if negb (existsb (acct_eqb r21) r33) then Done 15 else
  if negb (existsb (acct_eqb r22) r33) then Done 16 else
  if negb (existsb (acct_eqb r25) r33) then Done 17 else
  r34 <- ts_gpa ET r1 spl_token_id (Some [(Datasize 165); (MemcmpC (Memcmp 0 (MBytes (le 32 1001))))]) Confirmed ;;
  r35 <- unwrap_r r34 ;;
  if negb ((lenN r35) =? 6) then Done 18 else
  if negb (existsb (acct_eqb r9) r35) then Done 19 else
  if negb (existsb (acct_eqb r14) r35) then Done 20 else
  if negb (existsb (acct_eqb r15) r35) then Done 21 else
  if negb (existsb (acct_eqb r21) r35) then Done 22 else
  if negb (existsb (acct_eqb r22) r35) then Done 23 else
  if negb (existsb (acct_eqb r25) r35) then Done 24 else
  r36 <- ts_gpa ET r1 spl_token_id (Some [(Datasize 165); (MemcmpC (Memcmp 0 (MBytes (le 32 1002))))]) Confirmed ;;
  r37 <- unwrap_r r36 ;;
  if negb ((lenN r37) =? 4) then Done 25 else
  if negb (existsb (acct_eqb r10) r37) then Done 26 else
  if negb (existsb (acct_eqb r11) r37) then Done 27 else
  if negb (existsb (acct_eqb r23) r37) then Done 28 else
  if negb (existsb (acct_eqb r24) r37) then Done 29 else
  r38 <- ts_gpa ET r1 spl_token_id (Some [(Datasize 82)]) Processed ;;
  r39 <- unwrap_r r38 ;;
  if negb ((lenN r39) =? 2) then Done 30 else
  if negb (existsb (acct_eqb r3) r39) then Done 31 else
  if negb (existsb (acct_eqb r5) r39) then Done 32 else
  Done 0.
Example test_gpa_token_account_passes : test_gpa_token_account = Done 0.
Proof. vm_compute. reflexivity. Qed.

(** token_account_storage/tests/token_program_tests.rs 18-493: 35 assertions. *)
Definition test_saving_and_loading_token_account : res N :=
  let r1 := ts_empty in
  let r2 := SplMint None 100 6 true None in
  let r3 := Acct 1001 (Account 1000 (DRaw (pack_mint r2)) spl_token_id false (2 ^ 64 - 1)) 1 1 in
  let r4 := SplAccount 1001 1002 50 None Init None 0 None in
  let r5 := Acct 1003 (Account 2039280 (DRaw (pack_account r4)) spl_token_id false (2 ^ 64 - 1)) 2 2 in
  r1 <- ts_init ET r1 r3 ;;
  r1 <- ts_init ET r1 r5 ;;
  r6 <- ts_get r1 1003 Confirmed ;;
  r7 <- unwrap_r r6 ;;
  r8 <- unwrap r7 ;;
  r9 <- token_params r8 ;;
  if negb (eq_tp r9 r4) then Done 1 else
  r10 <- ts_get r1 1003 Processed ;;
  r11 <- unwrap_r r10 ;;
  r12 <- unwrap r11 ;;
  r13 <- token_params r12 ;;
  if negb (eq_tp r13 r4) then Done 2 else
  r14 <- ts_get r1 1003 Finalized ;;
  r15 <- unwrap_r r14 ;;
  r16 <- unwrap r15 ;;
  r17 <- token_params r16 ;;
  if negb (eq_tp r17 r4) then Done 3 else
  r18 <- ts_get r1 1001 Confirmed ;;
  r19 <- unwrap_r r18 ;;
  r20 <- unwrap r19 ;;
  r21 <- mint_params r20 ;;
  if negb (eq_mp r21 r2) then Done 4 else
  r22 <- ts_get r1 1001 Processed ;;
  r23 <- unwrap_r r22 ;;
  r24 <- unwrap r23 ;;
  r25 <- mint_params r24 ;;
  if negb (eq_mp r25 r2) then Done 5 else
  r26 <- ts_get r1 1001 Finalized ;;
  r27 <- unwrap_r r26 ;;
  r28 <- unwrap r27 ;;
  r29 <- mint_params r28 ;;
  if negb (eq_mp r29 r2) then Done 6 else
  let r30 := SplAccount 1001 1002 50 (Some 1004) Frozen None 71 (Some 1005) in
  let r31 := SplAccount 1001 1002 100 (Some 1006) Init (Some 4242) 72 (Some 1007) in
  let r32 := Acct 1003 (Account 2039280 (DRaw (pack_account r30)) spl_token_id false (2 ^ 64 - 1)) 3 3 in
  let r33 := Acct 1003 (Account 2039280 (DRaw (pack_account r31)) spl_token_id false (2 ^ 64 - 1)) 4 4 in
  r34 <- ts_update ET r1 r32 Processed ;;
  let r1 := r34.1 in
  r35 <- ts_update ET r1 r33 Processed ;;
  let r1 := r35.1 in
  r36 <- ts_slot map_to_list r1 (SlotInfo 3 2 0) Processed ;;
  let r1 := r36.1 in
  if negb (eq_l r36.2 []) then Done 7 else
  r37 <- ts_slot map_to_list r1 (SlotInfo 4 3 0) Processed ;;
  let r1 := r37.1 in
  if negb (eq_l r37.2 []) then Done 8 else
  r38 <- ts_slot map_to_list r1 (SlotInfo 3 2 0) Confirmed ;;
  let r1 := r38.1 in
  if negb (eq_l r38.2 [r32]) then Done 9 else
  r39 <- ts_get r1 1003 Processed ;;
  r40 <- unwrap_r r39 ;;
  r41 <- unwrap r40 ;;
  r42 <- token_params r41 ;;
  if negb (eq_tp r42 r31) then Done 10 else
  r43 <- ts_get r1 1003 Confirmed ;;
  r44 <- unwrap_r r43 ;;
  r45 <- unwrap r44 ;;
  r46 <- token_params r45 ;;
  if negb (eq_tp r46 r30) then Done 11 else
  r47 <- ts_get r1 1003 Finalized ;;
  r48 <- unwrap_r r47 ;;
  r49 <- unwrap r48 ;;
  r50 <- token_params r49 ;;
  if negb (eq_tp r50 r4) then Done 12 else
  r51 <- ts_get r1 1001 Confirmed ;;
  r52 <- unwrap_r r51 ;;
  r53 <- unwrap r52 ;;
  r54 <- mint_params r53 ;;
  if negb (eq_mp r54 r2) then Done 13 else
  r55 <- ts_get r1 1001 Processed ;;
  r56 <- unwrap_r r55 ;;
  r57 <- unwrap r56 ;;
  r58 <- mint_params r57 ;;
  if negb (eq_mp r58 r2) then Done 14 else
  r59 <- ts_get r1 1001 Finalized ;;
  r60 <- unwrap_r r59 ;;
  r61 <- unwrap r60 ;;
  r62 <- mint_params r61 ;;
  if negb (eq_mp r62 r2) then Done 15 else
  r63 <- ts_slot map_to_list r1 (SlotInfo 4 3 0) Confirmed ;;
  let r1 := r63.1 in
  if negb (eq_l r63.2 [r33]) then Done 16 else
  r64 <- ts_slot map_to_list r1 (SlotInfo 3 2 0) Finalized ;;
  let r1 := r64.1 in
  if negb (eq_l r64.2 [r32]) then Done 17 else
  let r65 := SplMint (Some 1008) 2000 3 true (Some 1009) in
  let r66 := Acct 1001 (Account 1000 (DRaw (pack_mint r65)) spl_token_id false (2 ^ 64 - 1)) 5 5 in
  r67 <- ts_update ET r1 r66 Processed ;;
  let r1 := r67.1 in
  r68 <- ts_get r1 1003 Processed ;;
  r69 <- unwrap_r r68 ;;
  r70 <- unwrap r69 ;;
  r71 <- token_params r70 ;;
  if negb (eq_tp r71 r31) then Done 18 else
  r72 <- ts_get r1 1003 Confirmed ;;
  r73 <- unwrap_r r72 ;;
  r74 <- unwrap r73 ;;
  r75 <- token_params r74 ;;
  if negb (eq_tp r75 r31) then Done 19 else
  r76 <- ts_get r1 1003 Finalized ;;
  r77 <- unwrap_r r76 ;;
  r78 <- unwrap r77 ;;
  r79 <- token_params r78 ;;
  if negb (eq_tp r79 r30) then Done 20 else
  r80 <- ts_get r1 1001 Confirmed ;;
  r81 <- unwrap_r r80 ;;
  r82 <- unwrap r81 ;;
  r83 <- mint_params r82 ;;
  if negb (eq_mp r83 r2) then Done 21 else
  r84 <- ts_get r1 1001 Processed ;;
  r85 <- unwrap_r r84 ;;
  r86 <- unwrap r85 ;;
  r87 <- mint_params r86 ;;
  if negb (eq_mp r87 r65) then Done 22 else
  r88 <- ts_get r1 1001 Finalized ;;
  r89 <- unwrap_r r88 ;;
  r90 <- unwrap r89 ;;
  r91 <- mint_params r90 ;;
  if negb (eq_mp r91 r2) then Done 23 else
  let r92 := Acct 1003 (Account 0 (DRaw (bs [])) 0 false 18446744073709551615) 6 6 in
  r93 <- ts_update ET r1 r92 Processed ;;
  let r1 := r93.1 in
  r94 <- ts_get r1 1003 Processed ;;
  r95 <- unwrap_r r94 ;;
  if negb (eq_oa r95 None) then Done 24 else
  r96 <- ts_get r1 1003 Confirmed ;;
  r97 <- unwrap_r r96 ;;
  r98 <- unwrap r97 ;;
  r99 <- token_params r98 ;;
  if negb (eq_tp r99 r31) then Done 25 else
  r100 <- ts_get r1 1003 Finalized ;;
  r101 <- unwrap_r r100 ;;
  r102 <- unwrap r101 ;;
  r103 <- token_params r102 ;;
  if negb (eq_tp r103 r30) then Done 26 else
  r104 <- ts_slot map_to_list r1 (SlotInfo 6 5 0) Confirmed ;;
  let r1 := r104.1 in
  if negb (eq_l r104.2 []) then Done 27 else
  r105 <- ts_slot map_to_list r1 (SlotInfo 5 4 0) Finalized ;;
  let r1 := r105.1 in
  if negb ((eq_l r105.2 [r66; r33]) || (eq_l r105.2 [r33; r66])) then Done 28 else
  r106 <- ts_get r1 1003 Processed ;;
  r107 <- unwrap_r r106 ;;
  if negb (eq_oa r107 None) then Done 29 else
  r108 <- ts_get r1 1003 Confirmed ;;
  r109 <- unwrap_r r108 ;;
  if negb (eq_oa r109 None) then Done 30 else
  r110 <- ts_get r1 1003 Finalized ;;
  r111 <- unwrap_r r110 ;;
  r112 <- unwrap r111 ;;
  r113 <- token_params r112 ;;
  if negb (eq_tp r113 r31) then Done 31 else
  r114 <- ts_slot map_to_list r1 (SlotInfo 6 5 0) Finalized ;;
  let r1 := r114.1 in
  if negb (eq_l r114.2 []) then Done 32 else
  r115 <- ts_get r1 1003 Processed ;;
  r116 <- unwrap_r r115 ;;
  if negb (eq_oa r116 None) then Done 33 else
  r117 <- ts_get r1 1003 Confirmed ;;
  r118 <- unwrap_r r117 ;;
  if negb (eq_oa r118 None) then Done 34 else
  r119 <- ts_get r1 1003 Finalized ;;
  r120 <- unwrap_r r119 ;;
  if negb (eq_oa r120 None) then Done 35 else
  Done 0.
Example test_saving_and_loading_token_account_passes : test_saving_and_loading_token_account = Done 0.
Proof. vm_compute. reflexivity. Qed.
