(** Model of [TokenProgramAccountsStorage], token_account_storage/src/inmemory_token_storage.rs 302-847, over the
    in-memory table of token accounts ([InmemoryTokenAccountStorage]). *)
From Verif Require Import Base DataModel BincodeModel FilterModel StoreModel TokenModel SplModel TokenUtilsModel TokenPendModel.

(** [TokenProgramAccountsStorage], 302-313 (the values under the shared handles).  Positions in the table are
    [u32] in the source and do not wrap in the model. *)
Record tstore := TStore {
  ts_mints : gmap N mint_account;
  ts_mint_ix : gmap pubkey N;
  ts_multi : gmap pubkey multisig;
  ts_by_mint : gmap N (list nat);
  ts_by_owner : gmap N (list nat);
  ts_table : table;
  ts_pend : pend;
  ts_conf : N;
  ts_fin : N;
  ts_ctr : N }.
(** [new], 318-331. *)
Definition ts_empty : tstore := TStore ∅ ∅ ∅ ∅ ∅ table_empty [] 0 0 0.

(** Field updates. *)
Definition set_mints ts v := TStore v (ts_mint_ix ts) (ts_multi ts) (ts_by_mint ts) (ts_by_owner ts) (ts_table ts) (ts_pend ts) (ts_conf ts) (ts_fin ts) (ts_ctr ts).
Definition set_ix ts v c := TStore (ts_mints ts) v (ts_multi ts) (ts_by_mint ts) (ts_by_owner ts) (ts_table ts) (ts_pend ts) (ts_conf ts) (ts_fin ts) c.
Definition set_multi ts v := TStore (ts_mints ts) (ts_mint_ix ts) v (ts_by_mint ts) (ts_by_owner ts) (ts_table ts) (ts_pend ts) (ts_conf ts) (ts_fin ts) (ts_ctr ts).
Definition set_table ts bm bo v := TStore (ts_mints ts) (ts_mint_ix ts) (ts_multi ts) bm bo v (ts_pend ts) (ts_conf ts) (ts_fin ts) (ts_ctr ts).
Definition set_pend ts v := TStore (ts_mints ts) (ts_mint_ix ts) (ts_multi ts) (ts_by_mint ts) (ts_by_owner ts) (ts_table ts) v (ts_conf ts) (ts_fin ts) (ts_ctr ts).
Definition set_conf ts v := TStore (ts_mints ts) (ts_mint_ix ts) (ts_multi ts) (ts_by_mint ts) (ts_by_owner ts) (ts_table ts) (ts_pend ts) v (ts_fin ts) (ts_ctr ts).
Definition set_fin ts v := TStore (ts_mints ts) (ts_mint_ix ts) (ts_multi ts) (ts_by_mint ts) (ts_by_owner ts) (ts_table ts) (ts_pend ts) (ts_conf ts) v (ts_ctr ts).

(** [entry(k)] then [push_back(i)] or [insert(vec![i])]: 343-352, 355-366, 822-829, 831-839. *)
Definition push_at (k : N) (i : nat) (m : gmap N (list nat)) : gmap N (list nat) :=
  <[k := default [] (m !! k) ++ [i]]> m.

(** The [TokenAccount] case of [add_account_finalized], 335-368, also the end of the loop of [load_from_snapshot], 817-841. *)
Definition add_token (ts : tstore) (t : token_account) : res tstore :=
  '(tb, i, added) ← tb_save (ts_table ts) t;
  Done (if added : bool
        then set_table ts (push_at (ta_mint t) i (ts_by_mint ts)) (push_at (prefix4 (ta_owner t)) i (ts_by_owner ts)) tb
        else set_table ts (ts_by_mint ts) (ts_by_owner ts) tb).
(** [add_account_finalized], 334-400 (always answers true). *)
Definition add_finalized (ts : tstore) (a : tpa) : res tstore :=
  match a with
  | TPToken t => add_token ts t
  | TPMint m =>
      match ts_mint_ix ts !! ma_pubkey m with
      | Some i => Done (set_mints ts (<[i := m]> (ts_mints ts)))
      | None =>
          let ts' := set_mints ts (<[ts_ctr ts := m]> (ts_mints ts)) in
          Done (set_ix ts' (<[ma_pubkey m := ts_ctr ts]> (ts_mint_ix ts)) (ts_ctr ts + 1))
      end
  | TPMulti m pk => Done (set_multi ts (<[pk := m]> (ts_multi ts)))
  | TPDeleted pk =>
      match ts_mint_ix ts !! pk with
      | Some i =>
          let ts' := set_mints ts (delete i (ts_mints ts)) in
          let ts' := set_ix ts' (delete pk (ts_mint_ix ts)) (ts_ctr ts) in
          Done (set_table ts' (delete i (ts_by_mint ts)) (ts_by_owner ts) (ts_table ts))
      | None => tb ← tb_delete (ts_table ts) pk; Done (set_table ts (ts_by_mint ts) (ts_by_owner ts) tb)
      end
  end.

(** [is_token_program_account], 402-412. *)
Definition is_token (ts : tstore) (a : acct) : res bool :=
  if bool_decide (is_Some (ts_mint_ix ts !! d_pubkey a)) || bool_decide (is_Some (ts_multi ts !! d_pubkey a))
     || (d_owner a =? spl_token_id) || (d_owner a =? spl_2022_id)
  then Done true
  else o ← tb_contains (ts_table ts) (d_pubkey a); Done (match o with Some _ => true | None => false end).

(** [get_account_finalized], 414-445. *)
Definition get_fin (ts : tstore) (pk : pubkey) : res (option acct) :=
  match ts_multi ts !! pk with
  | Some m => a ← multisig_to_acct m pk (ts_fin ts) 0; Done (Some a)
  | None =>
      match ts_mint_ix ts !! pk with
      | Some i => m ← unwrap (ts_mints ts !! i); Done (Some (mint_to_acct m (ts_fin ts) 0))
      | None =>
          o ← tb_get (ts_table ts) pk;
          match o with
          | Some t => if ta_deleted t then Done None else token_to_acct t (ts_fin ts) 0 (ts_mints ts)
          | None => Done None
          end
      end
  end.

(** [filter_map(token_account_to_solana_account)], 481-489 and 506-514. *)
Fixpoint tokens_to_accts (ts : tstore) (l : list token_account) : res (list acct) :=
  match l with
  | [] => Done []
  | t :: l' =>
      o ← token_to_acct t (ts_fin ts) 0 (ts_mints ts);
      r ← tokens_to_accts ts l';
      Done (match o with Some x => x :: r | None => r end)
  end.
(** The mint query, 524-537. *)
Fixpoint keep_all (E : ext) (cs : list cond) (l : list acct) : res (list acct) :=
  match l with
  | [] => Done []
  | a :: l' =>
      k ← all_r (fun c => d ← data_bytes E (d_data a); allows E c d) cs;
      r ← keep_all E cs l';
      Done (if k : bool then a :: r else r)
  end.
(** The filter of 473-480. *)
Definition keep_token (o : pubkey) (mint : option N) (t : token_account) : bool :=
  match mint with Some i => (ta_mint t =? i) && (ta_owner t =? o) | None => ta_owner t =? o end.
(** [get_program_accounts_finalized], 447-547.  The order of the answer is that of a [HashSet] or [DashMap]
    iteration and not modelled. *)
Definition gpa_fin (E : ext) (ts : tstore) (p : pubkey) (fl : option (list cond)) : res (result (list acct)) :=
  match fl with
  | None => Done (RErr ShouldContainAnAccountFilter)
  | Some cs =>
      let '(owner, mint) := owner_mint_filter p cs in
      match owner, mint with
      | Some o, _ =>
          mi ← match mint with None => Done None | Some m => i ← unwrap (ts_mint_ix ts !! m); Done (Some i) end;
          match ts_by_owner ts !! prefix4 o with
          | Some ixs =>
              l ← tb_by_index (ts_table ts) (list_to_set ixs);
              r ← tokens_to_accts ts (filter (fun t => keep_token o mi t = true) l);
              Done (ROk r)
          | None => Done (ROk [])
          end
      | None, Some m =>
          match ts_mint_ix ts !! m with
          | Some i =>
              match ts_by_mint ts !! i with
              | Some ixs => l ← tb_by_index (ts_table ts) (list_to_set ixs); r ← tokens_to_accts ts l; Done (ROk r)
              | None => Done (ROk [])
              end
          | None => Done (ROk [])
          end
      | None, None =>
          if bool_decide (Datasize 82 ∈ cs)
          then r ← keep_all E cs ((fun m => mint_to_acct m.2 (ts_fin ts) 0) <$> map_to_list (ts_mints ts)); Done (ROk r)
          else Done (RErr ShouldContainAnAccountFilter)
      end
  end.

(** [update_account], 558-589. *)
Definition ts_update (E : ext) (ts : tstore) (a : acct) (c : commitment) : res (tstore * bool) :=
  k ← is_token ts a;
  if k : bool then
    o ← account_type E a (ts_mint_ix ts) (ts_ctr ts);
    match o with
    | None => Done (ts, false)
    | Some (ty, ix, ctr) =>
        let ts := set_ix ts ix ctr in
        match c with
        | Finalized => ts' ← add_finalized ts ty; Done (ts', true)
        | _ => let '(p, b) := pd_insert (ts_pend ts) (d_pubkey a) ty (d_wv a) (d_slot a) in Done (set_pend ts p, b)
        end
    end
  else Done (ts, false).
(** [initilize_or_update_account], 591-614. *)
Definition ts_init (E : ext) (ts : tstore) (a : acct) : res tstore :=
  k ← is_token ts a;
  if k : bool then
    o ← account_type E a (ts_mint_ix ts) (ts_ctr ts);
    match o with
    | None => Done ts
    | Some (ty, ix, ctr) => add_finalized (set_ix ts ix ctr) ty
    end
  else Done ts.

(** [get_account], 616-645. *)
Definition ts_get (ts : tstore) (pk : pubkey) (c : commitment) : res (result (option acct)) :=
  match c with
  | Finalized => o ← get_fin ts pk; Done (ROk o)
  | _ =>
      l ← pd_get (ts_pend ts) [pk] c (ts_conf ts);
      o ← unwrap (head l);
      match o with
      | Some ((a, _), slot) => x ← tpa_to_acct a slot 0 (ts_mints ts); Done (ROk x)
      | None => x ← get_fin ts pk; Done (ROk x)
      end
  end.
(** The loop of 666-690: pending versions replace the finalized ones, deleted ones are removed. *)
Fixpoint overlay (mints : gmap N mint_account) (l : list acct) (ps : list (option (pacct * N))) : res (list acct) :=
  match l, ps with
  | a :: l', o :: ps' =>
      x ← match o with
          | Some ((ty, wv), slot) => tpa_to_acct ty slot wv mints
          | None => Done (Some a)
          end;
      r ← overlay mints l' ps';
      Done (match x with Some y => y :: r | None => r end)
  | _, _ => Done l
  end.
(** [get_program_accounts], 647-693. *)
Definition ts_gpa (E : ext) (ts : tstore) (p : pubkey) (fl : option (list cond)) (c : commitment) : res (result (list acct)) :=
  if negb (p =? spl_token_id) && negb (p =? spl_2022_id) then Done (RErr WrongIndex)
  else
    r ← gpa_fin E ts p fl;
    match r with
    | RErr e => Done (RErr e)
    | ROk l =>
        match c with
        | Finalized => Done (ROk l)
        | _ =>
            ps ← pd_get (ts_pend ts) (d_pubkey <$> l) c (ts_conf ts);
            l' ← overlay (ts_mints ts) l ps;
            Done (ROk l')
        end
    end.

(** [HashMap::drain] order in [finalize], 220-223: an arbitrary enumeration of the map. *)
Notation drain := (gmap pubkey (pacct * N) -> list (pubkey * (pacct * N))).
(** The loop of 732-734. *)
Fixpoint add_all (ts : tstore) (l : list tpa) : res tstore :=
  match l with [] => Done ts | a :: l' => ts' ← add_finalized ts a; add_all ts' l' end.
(** [process_slot_data], 695-738. *)
Definition ts_slot (ord : drain) (ts : tstore) (si : slot_info) (c : commitment) : res (tstore * list acct) :=
  match c with
  | Processed => Done (set_pend ts (pd_slot_info (ts_pend ts) si), [])
  | Confirmed =>
      let ts := if ts_conf ts <? si_slot si
                then set_pend (set_conf ts (si_slot si)) (pd_slot_info (ts_pend ts) si) else ts in
      '(p, l) ← pd_for_slot (ts_pend ts) si (ts_mints ts);
      Done (set_pend ts p, l)
  | Finalized =>
      let ts := if ts_fin ts <? si_slot si
                then set_fin (set_pend ts (pd_slot_info (ts_pend ts) si)) (si_slot si) else ts in
      let '(p, m) := pd_finalize (ts_pend ts) (si_slot si) in
      let ts := set_pend ts p in
      let l := (fun x => x.2) <$> ord m in
      r ← to_accts (ts_mints ts) ((fun '((ty, wv), slot) => (ty, slot, wv)) <$> l);
      ts' ← add_all ts ((fun x => x.1.1) <$> l);
      Done (ts', r)
  end.

(** ** Snapshots, 740-845. *)
(** [lz4::block] 1.28: the raw block codec of liblz4; decoding takes the size of the output buffer. *)
Record lz4x := Lz4x { lx_block : bytes -> option bytes; lx_unblock : N -> bytes -> option bytes }.
(** [lz4::block::decompress(src, None)]: the first four bytes are the size of the output (an [i32]). *)
Definition lz4_decompress (X : lz4x) (b : bytes) : option bytes :=
  if (length b <? 4)%nat then None
  else let n := unle (take 4 b) in if 0x7E000000 <? n then None else lx_unblock X n (drop 4 b).
(** serde-derived [Program], [MintAccount], [MultiSig]: account_types.rs 7-12, 81-103. *)
Definition e_program (p : program) : bytes := e_u32 (match p with TokenP => 0 | Token2022P => 1 end).
Definition d_program : dec program := t <~ d_u32;; if t =? 0 then d_ret TokenP else if t =? 1 then d_ret Token2022P else d_fail.
Definition e_mint (m : mint_account) : bytes :=
  e_program (ma_program m) ++ e_pubkey (ma_pubkey m) ++ e_u64 (ma_lamports m) ++ e_u64 (ma_supply m) ++ e_u8 (ma_decimals m)
  ++ e_bool (ma_init m) ++ e_option e_pubkey (ma_authority m) ++ e_option e_pubkey (ma_freeze m) ++ e_option e_bytes (ma_extra m).
Definition d_mint : dec mint_account :=
  p <~ d_program;; k <~ d_pubkey_;; l <~ d_u64;; s <~ d_u64;; d <~ d_u8;; i <~ d_bool;; a <~ d_option d_pubkey_;; f <~ d_option d_pubkey_;;
  x <~ d_option d_bytes;; d_ret (MintAccount p k l s d i a f x).
Definition e_multi (m : multisig) : bytes :=
  e_program (mu_program m) ++ e_pubkey (mu_pubkey m) ++ e_u64 (mu_lamports m) ++ e_u8 (mu_m m) ++ e_u8 (mu_n m)
  ++ e_bool (mu_init m) ++ e_list e_pubkey (mu_signers m).
Definition d_multi : dec multisig :=
  p <~ d_program;; k <~ d_pubkey_;; l <~ d_u64;; m <~ d_u8;; n <~ d_u8;; i <~ d_bool;; s <~ d_list d_pubkey_;;
  d_ret (MultiSig p k l m n i s).
(** [TokenProgramSnapshot], 550-555. *)
Record tsnap := TSnap { sn_mints : list (N * mint_account); sn_multis : list multisig; sn_tokens : list bytes }.
Definition e_snap (s : tsnap) : bytes :=
  e_list (fun x => e_u32 x.1 ++ e_mint x.2) (sn_mints s) ++ e_list e_multi (sn_multis s) ++ e_list e_bytes (sn_tokens s).
Definition d_snap : dec tsnap :=
  a <~ d_list (i <~ d_u32;; m <~ d_mint;; d_ret (i, m));; b <~ d_list d_multi;; c <~ d_list d_bytes;; d_ret (TSnap a b c).
(** The snapshot content, 740-771. *)
Definition snap_program (p : pubkey) : option program :=
  if p =? spl_token_id then Some TokenP else if p =? spl_2022_id then Some Token2022P else None.
Definition snap_content (ts : tstore) (p : program) : res tsnap :=
  t ← tb_snapshot (ts_table ts) p;
  Done (TSnap (filter (fun x => ma_program x.2 = p) (map_to_list (ts_mints ts))) (snd <$> map_to_list (ts_multi ts)) t).
(** [create_snapshot], 740-777: compressed without the size prefix. *)
Definition ts_snapshot (X : lz4x) (ts : tstore) (pk : pubkey) : res (result bytes) :=
  match snap_program pk with
  | None => Done (RErr WrongIndex)
  | Some p =>
      s ← snap_content ts p;
      Done (match lx_block X (e_snap s) with Some b => ROk b | None => RErr CompressionIssues end)
  end.
(** The loop of 801-813: the index of a known mint is only put in the mapping, its data goes to the snapshot's index. *)
Fixpoint load_mints (ts : tstore) (map : gmap N N) (l : list (N * mint_account)) : tstore * gmap N N :=
  match l with
  | [] => (ts, map)
  | (i, m) :: l' =>
      match ts_mint_ix ts !! ma_pubkey m with
      | Some j => load_mints (set_mints ts (<[i := m]> (ts_mints ts))) (<[i := j]> map) l'
      | None =>
          let j := ts_ctr ts in
          load_mints (set_ix (set_mints ts (<[j := m]> (ts_mints ts))) (ts_mint_ix ts) (j + 1)) (<[i := j]> map) l'
      end
  end.
(** [token_account.mint = new_mint_index], 819. *)
Definition with_mint (t : token_account) (i : N) : token_account :=
  TokenAccount (ta_program t) (ta_deleted t) (ta_pubkey t) (ta_owner t) i (ta_amount t) (ta_state t) (ta_delegate t)
    (ta_native t) (ta_close t) (ta_extra t).
(** The loop of 815-842. *)
Fixpoint load_tokens (ts : tstore) (map : gmap N N) (l : list bytes) : res tstore :=
  match l with
  | [] => Done ts
  | v :: l' =>
      t ← from_bytes v;
      i ← unwrap (map !! ta_mint t);
      ts' ← add_token ts (with_mint t i);
      load_tokens ts' map l'
  end.
(** 788-844. *)
Definition load_content (ts : tstore) (s : tsnap) : res tstore :=
  let ts := foldl (fun ts m => set_multi ts (<[mu_pubkey m := m]> (ts_multi ts))) ts (sn_multis s) in
  let '(ts, map) := load_mints ts ∅ (sn_mints s) in
  load_tokens ts map (sn_tokens s).
(** [load_from_snapshot], 779-845; the program id is ignored. *)
Definition ts_load (X : lz4x) (ts : tstore) (p : pubkey) (b : bytes) : res (tstore * result unit) :=
  match lz4_decompress X b with
  | None => Done (ts, RErr CompressionIssues)
  | Some d =>
      match d_snap d with
      | None => Done (ts, RErr DeserializationIssues)
      | Some (s, _) => ts' ← load_content ts s; Done (ts', ROk tt)
      end
  end.

(** Operations and histories; every slot notification comes with the enumeration its [drain] used. *)
Inductive tsop :=
| TUpdate (a : acct) (c : commitment)
| TInit (a : acct)
| TSlot (ord : drain) (si : slot_info) (c : commitment)
| TLoad (p : pubkey) (b : bytes).
Definition ts_step (E : ext) (X : lz4x) (ts : tstore) (o : tsop) : res tstore :=
  match o with
  | TUpdate a c => '(ts', _) ← ts_update E ts a c; Done ts'
  | TInit a => ts_init E ts a
  | TSlot ord si c => '(ts', _) ← ts_slot ord ts si c; Done ts'
  | TLoad p b => '(ts', _) ← ts_load X ts p b; Done ts'
  end.
Fixpoint ts_run (E : ext) (X : lz4x) (ts : tstore) (l : list tsop) : res tstore :=
  match l with [] => Done ts | o :: l' => ts' ← ts_step E X ts o; ts_run E X ts' l' end.
