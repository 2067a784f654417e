(** Model of the Prometheus gauges of both stores: [ACCOUNT_STORED_IN_MEMORY] and [SLOT_FOR_LATEST_ACCOUNT_UPDATE] of
    account_storage/src/inmemory_account_store.rs 21-30, [TOKEN_PROGRAM_TOTAL_PROCESSED_ACCOUNTS] and
    [TOKEN_MINTS_IN_MEMORY] of token_account_storage/src/inmemory_token_storage.rs 34-40,
    [TOKEN_ACCOUNT_STORED_IN_MEMORY] and [TOKEN_ACCOUNT_DELETED_IN_MEMORY] of
    token_account_storage/src/inmemory_token_account_storage.rs 19-25.  [TOTAL_PROCESSED_ACCOUNTS] (25-26) is never
    written.  An [IntGauge] is an [i64]; only the conversion of the slot (206) wraps in the model.  The gauges are
    process-wide; the model is of a process with one store.  Gauges are written by the calls and read only by the
    metrics server, so the model computes them beside the stores: every function here follows the branches of the
    function of the same name without [g_] in StoreModel.v, TokenModel.v, TokenPendModel.v and TokenStoreModel.v. *)
From Verif Require Import Base DataModel FilterModel BincodeModel ByCommitModel StoreModel TokenModel SplModel
  TokenUtilsModel TokenPendModel TokenStoreModel.

(** ** The account store: [ACCOUNT_STORED_IN_MEMORY] and [SLOT_FOR_LATEST_ACCOUNT_UPDATE], inmemory_account_store.rs 21-30. *)
Record agauge := AGauge { ag_stored : Z; ag_latest : Z }.
Definition ag_zero : agauge := AGauge 0 0.
(** [updated_slot as i64], inmemory_account_store.rs 206. *)
Definition as_i64 (n : N) : Z :=
  (let m := Z.of_N n mod 2 ^ 64 in if m <? 2 ^ 63 then m else m - 2 ^ 64)%Z.
(** [update_account], 205-264: 206 always; 246 when the account is not known and is wanted. *)
Definition g_update (F : filt) (st : store) (a : acct) (G : agauge) : agauge :=
  let G := AGauge (ag_stored G) (as_i64 (d_slot a)) in
  if negb (is_deleted a) && negb (fl_sat F a) && negb (contains_key st (d_pubkey a)) then G
  else match st_index st !! d_pubkey a with
       | Some _ => G
       | None => if fl_sat F a then AGauge (ag_stored G + 1) (ag_latest G) else G
       end.
(** [load_from_snapshot], 462-473. *)
Fixpoint g_load (F : filt) (st : store) (l : list acct) (G : agauge) : res agauge :=
  match l with
  | [] => Done G
  | a :: l' => st' ← init_account F st a; g_load F st' l' (g_update F st a G)
  end.
(** The other calls write no gauge. *)
Definition g_step (F : filt) (st : store) (o : op) (G : agauge) : res agauge :=
  match o with
  | OUpdate a _ => Done (g_update F st a G)
  | OInit a => Done (g_update F st a G)
  | OLoad _ b => match unbincode_accounts b with None => Done G | Some l => g_load F st l G end
  | _ => Done G
  end.
(** A history with the gauges. *)
Fixpoint g_run (E : ext) (st : store) (G : agauge) (h : list (filt * op)) : res (store * agauge) :=
  match h with
  | [] => Done (st, G)
  | (F, o) :: h' =>
      G' ← g_step F st o G;
      '(st', _) ← step E F st o;
      g_run E st' G' h'
  end.

(** ** The token store. *)
Record tgauge := TGauge { tg_stored : Z; tg_deleted : Z; tg_mints : Z; tg_pend : Z }.
Definition tg_zero : tgauge := TGauge 0 0 0 0.
Definition tg_add (a b : tgauge) : tgauge :=
  TGauge (tg_stored a + tg_stored b) (tg_deleted a + tg_deleted b) (tg_mints a + tg_mints b) (tg_pend a + tg_pend b).
(** [save_or_update], inmemory_token_account_storage.rs 61-96: 82 and 92 when a record is appended. *)
Definition g_token (tb : table) (t : token_account) (G : tgauge) : res tgauge :=
  '(_, _, added) ← tb_save tb t;
  Done (if added : bool then tg_add G (TGauge 1 0 0 0) else G).
(** [delete], 130-157: 150 when a record with the key is found. *)
Definition g_delete (tb : table) (pk : pubkey) (G : tgauge) : res tgauge :=
  match tb_index tb !! prefix4 pk with
  | None => Done G
  | Some ixs =>
      o ← find_pk (tb_accounts tb) pk ixs;
      Done (match o with Some _ => tg_add G (TGauge 0 1 0 0) | None => G end)
  end.
(** [add_account_finalized], inmemory_token_storage.rs 334-400: 375 for a mint without an index, 389 when the index
    of a mint is removed. *)
Definition g_finalized (ts : tstore) (a : tpa) (G : tgauge) : res tgauge :=
  match a with
  | TPToken t => g_token (ts_table ts) t G
  | TPMint m => Done (match ts_mint_ix ts !! ma_pubkey m with Some _ => G | None => tg_add G (TGauge 0 0 1 0) end)
  | TPMulti _ _ => Done G
  | TPDeleted pk =>
      match ts_mint_ix ts !! pk with
      | Some _ => Done (tg_add G (TGauge 0 0 (-1) 0))
      | None => g_delete (ts_table ts) pk G
      end
  end.
(** [insert_account], 61-124: 91 and 105 when the slot had no version of the account. *)
Definition g_insert (p : pend) (pk : pubkey) (slot : N) (G : tgauge) : tgauge :=
  match sm_get slot p with
  | Some b => match ps_accounts b !! pk with Some _ => G | None => tg_add G (TGauge 0 0 0 1) end
  | None => tg_add G (TGauge 0 0 0 1)
  end.
(** [finalize], 179-224: 189 for every version of a visited slot; the removal of 212-219 leaves the gauge. *)
Fixpoint g_walk (fuel : nat) (p : pend) (cur : option N) (G : tgauge) : tgauge :=
  match fuel with
  | O => G
  | S fuel' =>
      match cur with
      | None => G
      | Some s =>
          match sm_get s p with
          | None => G
          | Some b => g_walk fuel' (sm_del s p) (ps_parent b) (tg_add G (TGauge 0 0 0 (- Z.of_nat (size (ps_accounts b)))))
          end
      end
  end.
(** [update_account], 558-589. *)
Definition g_tupdate (E : ext) (ts : tstore) (a : acct) (c : commitment) (G : tgauge) : res tgauge :=
  k ← is_token ts a;
  if k : bool then
    o ← account_type E a (ts_mint_ix ts) (ts_ctr ts);
    match o with
    | None => Done G
    | Some (ty, ix, ctr) =>
        let ts := set_ix ts ix ctr in
        match c with
        | Finalized => g_finalized ts ty G
        | _ => Done (g_insert (ts_pend ts) (d_pubkey a) (d_slot a) G)
        end
    end
  else Done G.
(** [initilize_or_update_account], 591-614. *)
Definition g_tinit (E : ext) (ts : tstore) (a : acct) (G : tgauge) : res tgauge := g_tupdate E ts a Finalized G.
(** The loop of 732-734. *)
Fixpoint g_all (ts : tstore) (l : list tpa) (G : tgauge) : res tgauge :=
  match l with
  | [] => Done G
  | a :: l' => G' ← g_finalized ts a G; ts' ← add_finalized ts a; g_all ts' l' G'
  end.
(** [process_slot_data], 695-738: only the finalizing case writes gauges. *)
Definition g_tslot (ord : drain) (ts : tstore) (si : slot_info) (c : commitment) (G : tgauge) : res tgauge :=
  match c with
  | Finalized =>
      let ts := if ts_fin ts <? si_slot si
                then set_fin (set_pend ts (pd_slot_info (ts_pend ts) si)) (si_slot si) else ts in
      let '(p, m) := pd_finalize (ts_pend ts) (si_slot si) in
      let G := g_walk (S (length (ts_pend ts))) (ts_pend ts) (Some (si_slot si)) G in
      g_all (set_pend ts p) ((fun x => x.2.1.1) <$> ord m) G
  | _ => Done G
  end.
(** The loop of 815-842 of [load_from_snapshot]; the loop over the mints (801-813) writes no gauge. *)
Fixpoint g_tokens (ts : tstore) (map : gmap N N) (l : list bytes) (G : tgauge) : res tgauge :=
  match l with
  | [] => Done G
  | v :: l' =>
      t ← from_bytes v;
      i ← unwrap (map !! ta_mint t);
      G' ← g_token (ts_table ts) (with_mint t i) G;
      ts' ← add_token ts (with_mint t i);
      g_tokens ts' map l' G'
  end.
Definition g_tload (X : lz4x) (ts : tstore) (b : bytes) (G : tgauge) : res tgauge :=
  match lz4_decompress X b with
  | None => Done G
  | Some d =>
      match d_snap d with
      | None => Done G
      | Some (s, _) =>
          let '(ts, map) :=
            load_mints (foldl (fun ts m => set_multi ts (<[mu_pubkey m := m]> (ts_multi ts))) ts (sn_multis s)) ∅ (sn_mints s) in
          g_tokens ts map (sn_tokens s) G
      end
  end.
Definition g_tstep (E : ext) (X : lz4x) (ts : tstore) (o : tsop) (G : tgauge) : res tgauge :=
  match o with
  | TUpdate a c => g_tupdate E ts a c G
  | TInit a => g_tinit E ts a G
  | TSlot ord si c => g_tslot ord ts si c G
  | TLoad _ b => g_tload X ts b G
  end.
Fixpoint g_trun (E : ext) (X : lz4x) (ts : tstore) (G : tgauge) (l : list tsop) : res (tstore * tgauge) :=
  match l with
  | [] => Done (ts, G)
  | o :: l' => G' ← g_tstep E X ts o G; ts' ← ts_step E X ts o; g_trun E X ts' G' l'
  end.
