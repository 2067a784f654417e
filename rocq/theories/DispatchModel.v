(** Model of [StorageByProgramId], account_storage/src/storage_by_program_id.rs 11-104, over arbitrary child storages, and the
    two storages of the repository as children. *)
From Verif Require Import Base DataModel FilterModel StoreModel TokenStoreModel.

(** [AccountStorageInterface], common/src/account_store_interface.rs 29-59, for a storage with states [S].  The methods take
    [&self]; the state stands for what is behind the storage's locks, and a call is one step. *)
Record iface (S : Type) := Iface {
  i_update : S -> acct -> commitment -> res (S * bool);
  i_init : S -> acct -> res S;
  i_get : S -> pubkey -> commitment -> res (result (option acct));
  i_gpa : S -> pubkey -> option (list cond) -> commitment -> res (result (list acct));
  i_slot : S -> slot_info -> commitment -> res (S * list acct);
  i_snapshot : S -> pubkey -> res (result bytes);
  i_load : S -> pubkey -> bytes -> res (S * result unit) }.
Arguments Iface {_} _ _ _ _ _ _ _.
Arguments i_update {_} _ _ _ _.
Arguments i_init {_} _ _ _.
Arguments i_get {_} _ _ _ _.
Arguments i_gpa {_} _ _ _ _ _.
Arguments i_slot {_} _ _ _ _.
Arguments i_snapshot {_} _ _ _.
Arguments i_load {_} _ _ _ _.

(** The fields of [StorageByProgramId], 11-14: the entries of the map in the order in which [iter()] visits them (the map is
    never modified, so the order is fixed, and arbitrary), and the default.  Storages are shared objects ([Arc]); an object is
    a number, and the same object may be registered more than once. *)
Record disp := Disp { dp_map : list (pubkey * nat); dp_default : nat }.
(** The states of all objects. *)
Notation heap S := (nat -> S).
(** An object gets a new state. *)
Definition hset {S} (h : heap S) (i : nat) (s : S) : heap S := fun j => if (j =? i)%nat then s else h j.

Section disp.
Context {S : Type} (I : nat -> iface S) (D : disp).

(** [HashMap::get]; the keys of a map are distinct. *)
Fixpoint dp_lookup (l : list (pubkey * nat)) (p : pubkey) : option nat :=
  match l with [] => None | (q, i) :: l' => if q =? p then Some i else dp_lookup l' p end.
(** The child for a program, 39-45, 67-72, 88-91, 99-102. *)
Definition dp_child (p : pubkey) : nat := default (dp_default D) (dp_lookup (dp_map D) p).

(** [update_account], 29-36. *)
Fixpoint dp_update_loop (h : heap S) (l : list (pubkey * nat)) (a : acct) (c : commitment) : res (heap S * bool) :=
  match l with
  | [] => '(s, b) ← i_update (I (dp_default D)) (h (dp_default D)) a c; Done (hset h (dp_default D) s, b)
  | (_, i) :: l' =>
      '(s, b) ← i_update (I i) (h i) a c;
      if b : bool then Done (hset h i s, true) else dp_update_loop (hset h i s) l' a c
  end.
Definition dp_update (h : heap S) (a : acct) (c : commitment) : res (heap S * bool) := dp_update_loop h (dp_map D) a c.

(** [initilize_or_update_account], 38-46. *)
Definition dp_init (h : heap S) (a : acct) : res (heap S) :=
  let i := dp_child (d_owner a) in s ← i_init (I i) (h i) a; Done (hset h i s).

(** [get_account], 48-59. *)
Fixpoint dp_get_loop (h : heap S) (l : list (pubkey * nat)) (pk : pubkey) (c : commitment) : res (result (option acct)) :=
  match l with
  | [] => i_get (I (dp_default D)) (h (dp_default D)) pk c
  | (_, i) :: l' =>
      r ← i_get (I i) (h i) pk c;
      match r with ROk o => Done (ROk o) | RErr _ => dp_get_loop h l' pk c end
  end.
Definition dp_get (h : heap S) (pk : pubkey) (c : commitment) : res (result (option acct)) := dp_get_loop h (dp_map D) pk c.

(** [get_program_accounts], 61-73. *)
Definition dp_gpa (h : heap S) (p : pubkey) (fl : option (list cond)) (c : commitment) : res (result (list acct)) :=
  i_gpa (I (dp_child p)) (h (dp_child p)) p fl c.

(** [process_slot_data], 75-84. *)
Fixpoint dp_slot_loop (h : heap S) (out : list acct) (l : list (pubkey * nat)) (si : slot_info) (c : commitment) : res (heap S * list acct) :=
  match l with
  | [] => '(s, t) ← i_slot (I (dp_default D)) (h (dp_default D)) si c; Done (hset h (dp_default D) s, out ++ t)
  | (_, i) :: l' => '(s, t) ← i_slot (I i) (h i) si c; dp_slot_loop (hset h i s) (out ++ t) l' si c
  end.
Definition dp_slot (h : heap S) (si : slot_info) (c : commitment) : res (heap S * list acct) := dp_slot_loop h [] (dp_map D) si c.

(** [create_snapshot], 87-92. *)
Definition dp_snapshot (h : heap S) (p : pubkey) : res (result bytes) := i_snapshot (I (dp_child p)) (h (dp_child p)) p.

(** [load_from_snapshot], 94-103. *)
Definition dp_load (h : heap S) (p : pubkey) (b : bytes) : res (heap S * result unit) :=
  '(s, r) ← i_load (I (dp_child p)) (h (dp_child p)) p b; Done (hset h (dp_child p) s, r).
End disp.

(** ** The storages of the repository behind the interface *)
(** An object is an in-memory store ([InmemoryAccountStore]) or a token store ([TokenProgramAccountsStorage]). *)
Inductive child := CMem (st : store) | CTok (ts : tstore).
(** [impl AccountStorageInterface for InmemoryAccountStore], account_storage/src/inmemory_account_store.rs 204-473, and
    [impl AccountStorageInterface for TokenProgramAccountsStorage], token_account_storage/src/inmemory_token_storage.rs 557-846.
    [F]: the filter store of an in-memory store; [ord]: the order in which the token store drains its maps. *)
Definition child_iface (E : ext) (X : lz4x) (F : filt) (ord : drain) : iface child := Iface
  (fun s a c => match s with
    | CMem st => '(st', b) ← update_account F st a c; Done (CMem st', b)
    | CTok ts => '(ts', b) ← ts_update E ts a c; Done (CTok ts', b) end)
  (fun s a => match s with
    | CMem st => st' ← init_account F st a; Done (CMem st')
    | CTok ts => ts' ← ts_init E ts a; Done (CTok ts') end)
  (fun s pk c => match s with CMem st => get_account st pk c | CTok ts => ts_get ts pk c end)
  (fun s p fl c => match s with CMem st => get_program_accounts E F st p fl c | CTok ts => ts_gpa E ts p fl c end)
  (fun s si c => match s with
    | CMem st => '(st', l) ← process_slot F st si c; Done (CMem st', l)
    | CTok ts => '(ts', l) ← ts_slot ord ts si c; Done (CTok ts', l) end)
  (fun s p => match s with CMem st => create_snapshot E F st p | CTok ts => ts_snapshot X ts p end)
  (fun s p b => match s with
    | CMem st => '(st', r) ← load_from_snapshot F st p b; Done (CMem st', r)
    | CTok ts => '(ts', r) ← ts_load X ts p b; Done (CTok ts', r) end).
