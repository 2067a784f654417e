(** Model of [token_account_storage/src/account_types.rs] and
    [token_account_storage/src/inmemory_token_account_storage.rs]. *)
From Verif Require Import Base DataModel.

(** [Program], account_types.rs 7-12. *)
Inductive program := TokenP | Token2022P.
#[global] Instance program_eq_dec : EqDecision program.
Proof. solve_decision. Defined.
(** [TokenProgramAccountState], account_types.rs 14-20. *)
Inductive tstate := Uninit | Init | Frozen.
#[global] Instance tstate_eq_dec : EqDecision tstate.
Proof. solve_decision. Defined.

(** [TokenAccount], account_types.rs 66-79. *)
Record token_account := TokenAccount {
  ta_program : program; ta_deleted : bool; ta_pubkey : pubkey; ta_owner : pubkey; ta_mint : N;
  ta_amount : N; ta_state : tstate; ta_delegate : option (pubkey * N); ta_native : option N;
  ta_close : option pubkey; ta_extra : option bytes }.
#[global] Instance token_account_eq_dec : EqDecision token_account.
Proof. solve_decision. Defined.

(** Slices: [v[..n]] and [v[n..]] (also [array_ref![v, 0, n]]); panics when [v] is shorter. *)
Definition cut (n : nat) (v : bytes) : res (bytes * bytes) :=
  if (n <=? length v)%nat then Done (take n v, drop n v) else Panic.
(** [v[a..a+n]]. *)
Definition slice (a n : nat) (v : bytes) : res bytes :=
  if (a + n <=? length v)%nat then Done (take n (drop a v)) else Panic.

(** The flag byte of [TokenAccount::to_bytes], account_types.rs 118-147. *)
Definition flag_bits (t : token_account) : N :=
  let p := match ta_program t with Token2022P => 1 | TokenP => 0 end in
  let p := N.lor p (N.shiftl (match ta_state t with Uninit => 2 | Frozen => 1 | Init => 0 end) 2) in
  let p := match ta_delegate t with Some _ => N.lor p (N.shiftl 1 4) | None => p end in
  let p := match ta_native t with Some _ => N.lor p (N.shiftl 1 5) | None => p end in
  let p := match ta_close t with Some _ => N.lor p (N.shiftl 1 6) | None => p end in
  match ta_extra t with Some _ => N.lor p (N.shiftl 1 7) | None => p end.

(** [TokenAccount::to_bytes], account_types.rs 111-177. *)
Definition to_bytes (t : token_account) : bytes :=
  n2b (flag_bits t) :: (if ta_deleted t then n2b 1 else n2b 0) ::
  le 32 (ta_pubkey t) ++ le 32 (ta_owner t) ++ le 4 (ta_mint t) ++ le 8 (ta_amount t) ++
  match ta_delegate t with Some (d, n) => le 32 d ++ le 8 n | None => [] end ++
  match ta_native t with Some n => le 8 n | None => [] end ++
  match ta_close t with Some p => le 32 p | None => [] end ++
  match ta_extra t with Some d => le 4 (lenN d) ++ d | None => [] end.

(** [TokenAccount::from_bytes], account_types.rs 179-251.  The [unreachable!]s are panics; the
    deleted flag is tested last in the source, which makes no difference. *)
Definition from_bytes (v : bytes) : res token_account :=
  '(header, others) ← cut 78 v;
  let flags := unle (take 1 header) in
  let prog := if N.land flags 1 =? 0 then TokenP else Token2022P in
  let sb := N.land (N.shiftr flags 2) 3 in
  st ← (if sb =? 0 then Done Init else if sb =? 1 then Done Frozen else if sb =? 2 then Done Uninit else Panic);
  '(delegate, others) ←
     (if N.land (N.shiftr flags 4) 1 =? 1
      then '(d, o) ← cut 40 others; Done (Some (unle (take 32 d), unle (drop 32 d)), o)
      else Done (None, others));
  '(native, others) ←
     (if N.land (N.shiftr flags 5) 1 =? 1 then '(d, o) ← cut 8 others; Done (Some (unle d), o) else Done (None, others));
  '(close, others) ←
     (if N.land (N.shiftr flags 6) 1 =? 1 then '(d, o) ← cut 32 others; Done (Some (unle d), o) else Done (None, others));
  extra ←
     (if N.land (N.shiftr flags 7) 1 =? 1
      then '(d, o) ← cut 4 others; '(x, _) ← cut (N.to_nat (unle d)) o; Done (Some x)
      else Done None);
  let del := unle (take 1 (drop 1 header)) in
  deleted ← (if del =? 0 then Done false else if del =? 1 then Done true else Panic);
  Done (TokenAccount prog deleted (unle (take 32 (drop 2 header))) (unle (take 32 (drop 34 header)))
          (unle (take 4 (drop 66 header))) (unle (take 8 (drop 70 header))) st delegate native close extra).

(** [get_pubkey_from_binary], [get_owner_from_binary], [get_mint_index_from_binary],
    account_types.rs 253-266. *)
Definition peek_pubkey (v : bytes) : res pubkey := b ← slice 2 32 v; Done (unle b).
Definition peek_owner (v : bytes) : res pubkey := b ← slice 34 32 v; Done (unle b).
Definition peek_mint (v : bytes) : res N := b ← slice 66 4 v; Done (unle b).

(** ** [InmemoryTokenAccountStorage], inmemory_token_account_storage.rs.
    [PartialPubkey<4>] (pubkey_container_utils.rs): the first four bytes. *)
Definition prefix4 (pk : pubkey) : N := pk mod 2 ^ 32.
(** Struct, 30-35.  [TokenAccountIndex] is a [u32]; the model does not wrap at 2^32 accounts. *)
Record table := Table { tb_index : gmap N (list nat); tb_accounts : list bytes }.
Definition table_empty : table := Table ∅ [].

(** The first index whose stored bytes carry [pk] (loops 44-50, 69-76, 116-122, 147-154). *)
Fixpoint find_pk (accs : list bytes) (pk : pubkey) (ixs : list nat) : res (option nat) :=
  match ixs with
  | [] => Done None
  | i :: ixs' =>
      v ← unwrap (accs !! i);
      p ← peek_pubkey v;
      if p =? pk then Done (Some i) else find_pk accs pk ixs'
  end.

(** [contains], 38-58. *)
Definition tb_contains (tb : table) (pk : pubkey) : res (option nat) :=
  match tb_index tb !! prefix4 pk with
  | None => Done None
  | Some ixs => if (1 <? length ixs)%nat then find_pk (tb_accounts tb) pk ixs
                else i ← unwrap (head ixs); Done (Some i)
  end.

(** [save_or_update], 60-96. *)
Definition tb_save (tb : table) (t : token_account) : res (table * nat * bool) :=
  let n := length (tb_accounts tb) in
  let k := prefix4 (ta_pubkey t) in
  match tb_index tb !! k with
  | Some ixs =>
      o ← find_pk (tb_accounts tb) (ta_pubkey t) ixs;
      match o with
      | Some i => Done (Table (tb_index tb) (<[i := to_bytes t]> (tb_accounts tb)), i, false)
      | None => Done (Table (<[k := ixs ++ [n]]> (tb_index tb)) (tb_accounts tb ++ [to_bytes t]), n, true)
      end
  | None => Done (Table (<[k := [n]]> (tb_index tb)) (tb_accounts tb ++ [to_bytes t]), n, true)
  end.

(** [get_by_index], 98-109; the [HashSet] as a [gset], so the order is not modelled. *)
Fixpoint from_all (accs : list bytes) (ixs : list nat) : res (list token_account) :=
  match ixs with
  | [] => Done []
  | i :: ixs' =>
      match accs !! i with
      | None => from_all accs ixs'
      | Some v => t ← from_bytes v; l ← from_all accs ixs'; Done (t :: l)
      end
  end.
Definition tb_by_index (tb : table) (s : gset nat) : res (list token_account) :=
  from_all (tb_accounts tb) (elements s).

(** [get_by_pubkey], 111-127. *)
Definition tb_get (tb : table) (pk : pubkey) : res (option token_account) :=
  match tb_index tb !! prefix4 pk with
  | None => Done None
  | Some ixs =>
      o ← find_pk (tb_accounts tb) pk ixs;
      match o with
      | None => Done None
      | Some i => v ← unwrap (tb_accounts tb !! i); t ← from_bytes v; Done (Some t)
      end
  end.

(** The placeholder written by [delete], 133-146. *)
Definition deleted_account : token_account :=
  TokenAccount TokenP true 0 0 0 0 Uninit None None None None.
(** [delete], 129-156. *)
Definition tb_delete (tb : table) (pk : pubkey) : res table :=
  match tb_index tb !! prefix4 pk with
  | None => Done tb
  | Some ixs =>
      let ix := delete (prefix4 pk) (tb_index tb) in
      o ← find_pk (tb_accounts tb) pk ixs;
      match o with
      | Some i => Done (Table ix (<[i := to_bytes deleted_account]> (tb_accounts tb)))
      | None => Done (Table ix (tb_accounts tb))
      end
  end.

(** [create_snapshot], 158-169. *)
Definition snap_keep (p : program) (v : bytes) : res bool :=
  f ← unwrap (v !! 0%nat);
  if N.land (b2n f) 3 =? match p with TokenP => 0 | Token2022P => 1 end
  then d ← unwrap (v !! 1%nat); Done (b2n d =? 0)
  else Done false.
Fixpoint tb_snapshot_from (p : program) (l : list bytes) : res (list bytes) :=
  match l with
  | [] => Done []
  | v :: l' => k ← snap_keep p v; r ← tb_snapshot_from p l'; Done (if k : bool then v :: r else r)
  end.
Definition tb_snapshot (tb : table) (p : program) : res (list bytes) := tb_snapshot_from p (tb_accounts tb).
