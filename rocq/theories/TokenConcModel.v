(** Concurrent calls of the token store, token_account_storage/src/inmemory_token_storage.rs (file S) over
    inmemory_token_account_storage.rs (file A).

    Every call is cut at its lock operations and atomics; each piece runs atomically.  Simplifications:
    - guards held across several locks make a piece when everything read or written under them is
      covered by the outer guard: the table below its key index (A 62-95, A 112-126), a mint below its index
      entry (S 370-381, S 424-431, S 802-806), index entry, position list and table of a query by mint (S 499-510);
    - the counter of mints is increased in the piece that inserts the new index;
    - [get_processed_for_slot] (S 155-168) and the query by mint (S 510-519) keep their guards while mints are read one by
      one; in the model what they guard may change meanwhile, which allows more interleavings;
    - the query for all mints (S 528-539) is one piece;
    - blocking forever is the subject of TokenLockModel.v. *)
From Verif Require Import Base DataModel BincodeModel FilterModel StoreModel TokenModel SplModel TokenUtilsModel TokenPendModel TokenStoreModel.

(** What a call returns. *)
Inductive tout :=
| OUpdate (b : bool) | OInit | OSlot (l : list acct) | OGet (o : option acct) | OGpa (r : result (list acct)) | OLoad (r : result unit).

(** [delete], A 129-156, at its two locks: the entry of the key index is removed (130), then the row is overwritten (132-154). *)
Definition tb_del_key (tb : table) (pk : pubkey) : table := Table (delete (prefix4 pk) (tb_index tb)) (tb_accounts tb).
Definition tb_del_row (tb : table) (pk : pubkey) (ixs : list nat) : res table :=
  o ← find_pk (tb_accounts tb) pk ixs;
  Done (match o with
        | Some i => Table (tb_index tb) (<[i := to_bytes deleted_account]> (tb_accounts tb))
        | None => tb
        end).
(** The [Processed] case of [get_accounts], S 267-292, up to the end of its first guard; the flag says whether
    [get_confirmed_accounts] is called (289). *)
Fixpoint proc_top (pks : list pubkey) (conf : N) (l : pend) (ret : list (option (pacct * N))) : list (option (pacct * N)) * bool :=
  match l with
  | [] => (ret, false)
  | (s, b) :: l' =>
      if conf <? s then
        let ret' := fill b s pks ret in
        if all_found ret' then (ret', false) else proc_top pks conf l' ret'
      else (ret, true)
  end.

(** Where a call is; [l] and [r] are the accounts still to be added and the answer of a call that finalizes. *)
Inductive tthr :=
| XUpd (a : acct) (c : option commitment)            (* update_account / initilize_or_update_account (no commitment), before S 403 *)
| XUpdMulti (a : acct) (c : option commitment)       (* before S 405 *)
| XUpdTable (a : acct) (c : option commitment)       (* before S 408 *)
| XType (a : acct) (c : option commitment)           (* before S 568 / 598 *)
| XIns (a : acct) (ty : tpa)                         (* before S 580 *)
| XAdds (l : list tpa) (r : tout)                    (* add_account_finalized, before S 335 *)
| XByMint (t : token_account) (i : nat) (l : list tpa) (r : tout)  (* before S 344 *)
| XByOwner (t : token_account) (i : nat) (l : list tpa) (r : tout) (* before S 356 *)
| XDelMint (i : N) (l : list tpa) (r : tout)         (* before S 390 *)
| XDelByMint (i : N) (l : list tpa) (r : tout)       (* before S 391 *)
| XDel2 (pk : pubkey) (l : list tpa) (r : tout)      (* before S 392 *)
| XDelKey (pk : pubkey) (l : list tpa) (r : tout)    (* before A 130 *)
| XDelRow (pk : pubkey) (ixs : list nat) (l : list tpa) (r : tout) (* before A 132 *)
| XSlot (ord : drain) (si : slot_info) (c : commitment) (* process_slot_data, before S 697 *)
| XConfStore (si : slot_info)                        (* before S 705 *)
| XConfInfo (si : slot_info)                         (* before S 706 *)
| XFor (si : slot_info)                              (* before S 708 *)
| XForNew (si : slot_info)                           (* before S 172 *)
| XFinInfo (ord : drain) (si : slot_info)            (* before S 714 *)
| XFinStore (ord : drain) (si : slot_info)           (* before S 715 *)
| XFinalize (ord : drain) (si : slot_info)           (* before S 719 *)
| XRender (q : list (tpa * N * N)) (out : list acct) (adds : list tpa) (* in the loops S 158-168, S 721-731 *)
| XGet (pk : pubkey) (c : commitment)                (* get_account, before S 622 *)
| XPend (pk : pubkey) (c : commitment) (conf : N)    (* before S 267 / 233 *)
| XPendConf (pk : pubkey) (conf : N) (ret : list (option (pacct * N))) (* before S 233, called from 289 *)
| XShow (ty : tpa) (slot : N)                        (* before S 634 *)
| XGetFin (pk : pubkey)                              (* get_account_finalized, before S 415 *)
| XGetMint (pk : pubkey)                             (* before S 424 *)
| XGetRow (pk : pubkey)                              (* before S 433 *)
| XRowSlot (t : token_account)                       (* before S 439 *)
| XRow (t : token_account) (slot : N)                (* before S 437, the mint *)
| XGpa (p : pubkey) (fl : option (list cond)) (c : commitment) (* get_program_accounts, before S 452 *)
| XGpaOwner (o : pubkey) (m : option pubkey) (c : commitment) (fin : N) (* before S 457 *)
| XGpaOwnerMint (o : pubkey) (m : pubkey) (ixs : option (list nat)) (c : commitment) (fin : N) (* before S 468 *)
| XGpaRows (o : pubkey) (mi : option N) (ixs : option (list nat)) (c : commitment) (fin : N) (* before S 472 *)
| XGpaMint (m : pubkey) (c : commitment) (fin : N)   (* before S 499 *)
| XGpaAll (cs : list cond) (c : commitment) (fin : N) (* before S 528 *)
| XRows (q : list token_account) (out : list acct) (c : commitment) (fin : N) (* in the loops S 484-491, S 511-518 *)
| XOver (l : list acct) (c : commitment)             (* before S 659 *)
| XOverPend (l : list acct) (c : commitment) (conf : N) (* before S 663 *)
| XOverConf (l : list acct) (conf : N) (ret : list (option (pacct * N))) (* before S 233, called from 289 *)
| XOverlay (l : list acct) (ps : list (option (pacct * N))) (out : list acct) (* in the loop S 667-690 *)
| XLoad (b : bytes)                                  (* load_from_snapshot, before S 784 *)
| XLoadMulti (us : list multisig) (ms : list (N * mint_account)) (rows : list bytes) (* in the loop S 795-797 *)
| XLoadMints (ms : list (N * mint_account)) (mp : gmap N N) (rows : list bytes) (* in the loop S 801-813 *)
| XLoadNew (i : N) (m : mint_account) (ms : list (N * mint_account)) (mp : gmap N N) (rows : list bytes) (* before S 808 *)
| XLoadRows (mp : gmap N N) (rows : list bytes)      (* in the loop S 815-842 *)
| XLoadOwner (t : token_account) (i : nat) (mp : gmap N N) (rows : list bytes) (* before S 823 *)
| XLoadOwnerNew (t : token_account) (i : nat) (mp : gmap N N) (rows : list bytes) (* before S 826 *)
| XLoadMint (t : token_account) (i : nat) (mp : gmap N N) (rows : list bytes) (* before S 831 *)
| XLoadMintNew (t : token_account) (i : nat) (mp : gmap N N) (rows : list bytes) (* before S 838 *)
| XDone (r : tout).

(** The answer of a call that finalizes one account. *)
Definition upd_out (c : option commitment) : tout := match c with Some _ => OUpdate true | None => OInit end.
Definition upd_no (c : option commitment) : tout := match c with Some _ => OUpdate false | None => OInit end.
(** What follows the finalized part of [get_program_accounts], S 660. *)
Definition shown (c : commitment) (l : list acct) : tthr := match c with Finalized => XDone (OGpa (ROk l)) | _ => XOver l c end.

(** One piece of a call; [None]: the call has returned. *)
Definition tpiece (E : ext) (X : lz4x) (ts : tstore) (t : tthr) : option (res (tstore * tthr)) :=
  match t with
  (* is_token_program_account, S 402-412 *)
  | XUpd a c => Some (Done (ts, if bool_decide (is_Some (ts_mint_ix ts !! d_pubkey a)) then XType a c else XUpdMulti a c))
  | XUpdMulti a c =>
      Some (Done (ts, if bool_decide (is_Some (ts_multi ts !! d_pubkey a)) || (d_owner a =? spl_token_id) || (d_owner a =? spl_2022_id)
                      then XType a c else XUpdTable a c))
  | XUpdTable a c =>
      Some (o ← tb_contains (ts_table ts) (d_pubkey a); Done (ts, match o with Some _ => XType a c | None => XDone (upd_no c) end))
  (* S 568-588, 598-613 *)
  | XType a c =>
      Some (o ← account_type E a (ts_mint_ix ts) (ts_ctr ts);
            Done match o with
                 | None => (ts, XDone (upd_no c))
                 | Some (ty, ix, ctr) =>
                     (set_ix ts ix ctr,
                      match c with
                      | Some Processed | Some Confirmed => XIns a ty
                      | _ => XAdds [ty] (upd_out c)
                      end)
                 end)
  | XIns a ty =>
      let '(p, b) := pd_insert (ts_pend ts) (d_pubkey a) ty (d_wv a) (d_slot a) in Some (Done (set_pend ts p, XDone (OUpdate b)))
  (* add_account_finalized, S 334-400, for each account (S 732-734) *)
  | XAdds [] r => Some (Done (ts, XDone r))
  | XAdds (TPToken tk :: l) r =>
      Some ('(tb, i, added) ← tb_save (ts_table ts) tk;
            Done (set_table ts (ts_by_mint ts) (ts_by_owner ts) tb, if added : bool then XByMint tk i l r else XAdds l r))
  | XByMint tk i l r =>
      Some (Done (set_table ts (push_at (ta_mint tk) i (ts_by_mint ts)) (ts_by_owner ts) (ts_table ts), XByOwner tk i l r))
  | XByOwner tk i l r =>
      Some (Done (set_table ts (ts_by_mint ts) (push_at (prefix4 (ta_owner tk)) i (ts_by_owner ts)) (ts_table ts), XAdds l r))
  | XAdds (TPMint m :: l) r => Some (ts' ← add_finalized ts (TPMint m); Done (ts', XAdds l r))
  | XAdds (TPMulti m pk :: l) r => Some (ts' ← add_finalized ts (TPMulti m pk); Done (ts', XAdds l r))
  | XAdds (TPDeleted pk :: l) r =>
      Some (Done match ts_mint_ix ts !! pk with
                 | Some i => (set_ix ts (delete pk (ts_mint_ix ts)) (ts_ctr ts), XDelMint i l r)
                 | None => (ts, XDel2 pk l r)
                 end)
  | XDelMint i l r => Some (Done (set_mints ts (delete i (ts_mints ts)), XDelByMint i l r))
  | XDelByMint i l r => Some (Done (set_table ts (delete i (ts_by_mint ts)) (ts_by_owner ts) (ts_table ts), XAdds l r))
  | XDel2 pk l r =>
      Some (Done match ts_mint_ix ts !! pk with
                 | Some _ => (set_ix ts (delete pk (ts_mint_ix ts)) (ts_ctr ts), XAdds l r)
                 | None => (ts, XDelKey pk l r)
                 end)
  | XDelKey pk l r =>
      Some (Done match tb_index (ts_table ts) !! prefix4 pk with
                 | Some ixs => (set_table ts (ts_by_mint ts) (ts_by_owner ts) (tb_del_key (ts_table ts) pk), XDelRow pk ixs l r)
                 | None => (ts, XAdds l r)
                 end)
  | XDelRow pk ixs l r =>
      Some (tb ← tb_del_row (ts_table ts) pk ixs; Done (set_table ts (ts_by_mint ts) (ts_by_owner ts) tb, XAdds l r))
  (* process_slot_data, S 695-738 *)
  | XSlot ord si Processed => Some (Done (set_pend ts (pd_slot_info (ts_pend ts) si), XDone (OSlot [])))
  | XSlot ord si Confirmed => Some (Done (ts, if ts_conf ts <? si_slot si then XConfStore si else XFor si))
  | XConfStore si => Some (Done (set_conf ts (si_slot si), XConfInfo si))
  | XConfInfo si => Some (Done (set_pend ts (pd_slot_info (ts_pend ts) si), XFor si))
  | XFor si =>
      Some (Done (ts, match sm_get (si_slot si) (ts_pend ts) with
                      | Some b => XRender ((fun '(_, (a, wv)) => (a, si_slot si, wv)) <$> map_to_list (ps_accounts b)) [] []
                      | None => XForNew si
                      end))
  | XForNew si => Some (Done (set_pend ts (pd_slot_info (ts_pend ts) si), XDone (OSlot [])))
  | XSlot ord si Finalized => Some (Done (ts, if ts_fin ts <? si_slot si then XFinInfo ord si else XFinalize ord si))
  | XFinInfo ord si => Some (Done (set_pend ts (pd_slot_info (ts_pend ts) si), XFinStore ord si))
  | XFinStore ord si => Some (Done (set_fin ts (si_slot si), XFinalize ord si))
  | XFinalize ord si =>
      let '(p, m) := pd_finalize (ts_pend ts) (si_slot si) in
      let l := (fun x => x.2) <$> ord m in
      Some (Done (set_pend ts p, XRender ((fun '((ty, wv), slot) => (ty, slot, wv)) <$> l) [] ((fun x => x.1.1) <$> l)))
  | XRender [] out adds => Some (Done (ts, XAdds adds (OSlot out)))
  | XRender ((a, slot, wv) :: q) out adds =>
      Some (o ← tpa_to_acct a slot wv (ts_mints ts); Done (ts, XRender q (match o with Some x => out ++ [x] | None => out end) adds))
  (* get_account, S 616-645 *)
  | XGet pk Finalized => Some (Done (ts, XGetFin pk))
  | XGet pk c => Some (Done (ts, XPend pk c (ts_conf ts)))
  | XPend pk c conf =>
      Some match c with
           | Processed =>
               let '(ret, more) := proc_top [pk] conf (reverse (ts_pend ts)) [None] in
               if more : bool then Done (ts, XPendConf pk conf ret)
               else o ← unwrap (head ret);
                    Done (ts, match o with Some ((ty, _), slot) => XShow ty slot | None => XGetFin pk end)
           | _ => Done (ts, XPendConf pk conf [None])
           end
  | XPendConf pk conf ret =>
      Some (ret' ← unwrap (conf_walk (S (length (ts_pend ts))) (ts_pend ts) [pk] (Some conf) ret);
            o ← unwrap (head ret');
            Done (ts, match o with Some ((ty, _), slot) => XShow ty slot | None => XGetFin pk end))
  | XShow ty slot => Some (o ← tpa_to_acct ty slot 0 (ts_mints ts); Done (ts, XDone (OGet o)))
  (* get_account_finalized, S 414-445 *)
  | XGetFin pk =>
      Some match ts_multi ts !! pk with
           | Some m => a ← multisig_to_acct m pk (ts_fin ts) 0; Done (ts, XDone (OGet (Some a)))
           | None => Done (ts, XGetMint pk)
           end
  | XGetMint pk =>
      Some match ts_mint_ix ts !! pk with
           | Some i => m ← unwrap (ts_mints ts !! i); Done (ts, XDone (OGet (Some (mint_to_acct m (ts_fin ts) 0))))
           | None => Done (ts, XGetRow pk)
           end
  | XGetRow pk =>
      Some (o ← tb_get (ts_table ts) pk;
            Done (ts, match o with
                      | Some tk => if ta_deleted tk then XDone (OGet None) else XRowSlot tk
                      | None => XDone (OGet None)
                      end))
  | XRowSlot tk => Some (Done (ts, XRow tk (ts_fin ts)))
  | XRow tk slot => Some (o ← token_to_acct tk slot 0 (ts_mints ts); Done (ts, XDone (OGet o)))
  (* get_program_accounts, S 647-693, with get_program_accounts_finalized, S 447-547 *)
  | XGpa p fl c =>
      Some (Done (ts,
        if negb (p =? spl_token_id) && negb (p =? spl_2022_id) then XDone (OGpa (RErr WrongIndex))
        else match fl with
             | None => XDone (OGpa (RErr ShouldContainAnAccountFilter))
             | Some cs =>
                 match owner_mint_filter p cs with
                 | (Some o, m) => XGpaOwner o m c (ts_fin ts)
                 | (None, Some m) => XGpaMint m c (ts_fin ts)
                 | (None, None) => if bool_decide (Datasize 82 ∈ cs) then XGpaAll cs c (ts_fin ts)
                                   else XDone (OGpa (RErr ShouldContainAnAccountFilter))
                 end
             end))
  | XGpaOwner o m c fin =>
      let ixs := ts_by_owner ts !! prefix4 o in
      Some (Done (ts, match m with Some m => XGpaOwnerMint o m ixs c fin | None => XGpaRows o None ixs c fin end))
  | XGpaOwnerMint o m ixs c fin => Some (i ← unwrap (ts_mint_ix ts !! m); Done (ts, XGpaRows o (Some i) ixs c fin))
  | XGpaRows o mi ixs c fin =>
      Some match ixs with
           | Some ixs =>
               l ← tb_by_index (ts_table ts) (list_to_set ixs);
               Done (ts, XRows (filter (fun tk => keep_token o mi tk = true) l) [] c fin)
           | None => Done (ts, shown c [])
           end
  | XGpaMint m c fin =>
      Some match ts_mint_ix ts !! m with
           | Some i =>
               match ts_by_mint ts !! i with
               | Some ixs => l ← tb_by_index (ts_table ts) (list_to_set ixs); Done (ts, XRows l [] c fin)
               | None => Done (ts, shown c [])
               end
           | None => Done (ts, shown c [])
           end
  | XGpaAll cs c fin =>
      Some (r ← keep_all E cs ((fun m => mint_to_acct m.2 fin 0) <$> map_to_list (ts_mints ts)); Done (ts, shown c r))
  | XRows [] out c fin => Some (Done (ts, shown c out))
  | XRows (tk :: q) out c fin =>
      Some (o ← token_to_acct tk fin 0 (ts_mints ts); Done (ts, XRows q (match o with Some x => out ++ [x] | None => out end) c fin))
  | XOver l c => Some (Done (ts, XOverPend l c (ts_conf ts)))
  | XOverPend l c conf =>
      let ret := replicate (length l) None in
      Some (Done (ts, match c with
                      | Processed =>
                          let '(ret', more) := proc_top (d_pubkey <$> l) conf (reverse (ts_pend ts)) ret in
                          if more : bool then XOverConf l conf ret' else XOverlay l ret' []
                      | _ => XOverConf l conf ret
                      end))
  | XOverConf l conf ret =>
      Some (ret' ← unwrap (conf_walk (S (length (ts_pend ts))) (ts_pend ts) (d_pubkey <$> l) (Some conf) ret); Done (ts, XOverlay l ret' []))
  | XOverlay (a :: l) (o :: ps) out =>
      Some (x ← match o with
                | Some ((ty, wv), slot) => tpa_to_acct ty slot wv (ts_mints ts)
                | None => Done (Some a)
                end;
            Done (ts, XOverlay l ps (match x with Some y => out ++ [y] | None => out end)))
  | XOverlay l _ out => Some (Done (ts, XDone (OGpa (ROk (out ++ l)))))
  (* load_from_snapshot, S 779-845 *)
  | XLoad b =>
      Some (Done (ts, match lz4_decompress X b with
                      | None => XDone (OLoad (RErr CompressionIssues))
                      | Some d =>
                          match d_snap d with
                          | None => XDone (OLoad (RErr DeserializationIssues))
                          | Some (s, _) => XLoadMulti (sn_multis s) (sn_mints s) (sn_tokens s)
                          end
                      end))
  | XLoadMulti [] ms rows => Some (Done (ts, XLoadMints ms ∅ rows))
  | XLoadMulti (m :: us) ms rows => Some (Done (set_multi ts (<[mu_pubkey m := m]> (ts_multi ts)), XLoadMulti us ms rows))
  | XLoadMints [] mp rows => Some (Done (ts, XLoadRows mp rows))
  | XLoadMints ((i, m) :: ms) mp rows =>
      Some (Done match ts_mint_ix ts !! ma_pubkey m with
                 | Some j => (set_mints ts (<[i := m]> (ts_mints ts)), XLoadMints ms (<[i := j]> mp) rows)
                 | None => (ts, XLoadNew i m ms mp rows)
                 end)
  | XLoadNew i m ms mp rows =>
      let j := ts_ctr ts in
      Some (Done (set_ix (set_mints ts (<[j := m]> (ts_mints ts))) (ts_mint_ix ts) (j + 1), XLoadMints ms (<[i := j]> mp) rows))
  | XLoadRows mp [] => Some (Done (ts, XDone (OLoad (ROk tt))))
  | XLoadRows mp (v :: rows) =>
      Some (tk ← from_bytes v;
            i ← unwrap (mp !! ta_mint tk);
            '(tb, j, added) ← tb_save (ts_table ts) (with_mint tk i);
            Done (set_table ts (ts_by_mint ts) (ts_by_owner ts) tb,
                  if added : bool then XLoadOwner (with_mint tk i) j mp rows else XLoadRows mp rows))
  | XLoadOwner tk i mp rows =>
      Some (Done match ts_by_owner ts !! prefix4 (ta_owner tk) with
                 | Some _ => (set_table ts (ts_by_mint ts) (push_at (prefix4 (ta_owner tk)) i (ts_by_owner ts)) (ts_table ts), XLoadMint tk i mp rows)
                 | None => (ts, XLoadOwnerNew tk i mp rows)
                 end)
  | XLoadOwnerNew tk i mp rows =>
      Some (Done (set_table ts (ts_by_mint ts) (<[prefix4 (ta_owner tk) := [i]]> (ts_by_owner ts)) (ts_table ts), XLoadMint tk i mp rows))
  | XLoadMint tk i mp rows =>
      Some (Done match ts_by_mint ts !! ta_mint tk with
                 | Some _ => (set_table ts (push_at (ta_mint tk) i (ts_by_mint ts)) (ts_by_owner ts) (ts_table ts), XLoadRows mp rows)
                 | None => (ts, XLoadMintNew tk i mp rows)
                 end)
  | XLoadMintNew tk i mp rows =>
      Some (Done (set_table ts (<[ta_mint tk := [i]]> (ts_by_mint ts)) (ts_by_owner ts) (ts_table ts), XLoadRows mp rows))
  | XDone _ => None
  end.

(** The calls of the interface, at their beginning. *)
Definition is_call (t : tthr) : bool :=
  match t with XUpd _ _ | XSlot _ _ _ | XGet _ _ | XGpa _ _ _ | XLoad _ => true | _ => false end.
(** The store and the calls made so far. *)
Record tconc := TConc { tc_ts : tstore; tc_thr : list tthr }.
Definition tc_empty : tconc := TConc ts_empty [].
(** Call [j] makes a step, or a new call is made. *)
Inductive tcstep (E : ext) (X : lz4x) (cs : tconc) : res tconc -> Prop :=
| tc_done j t ts t' : tc_thr cs !! j = Some t -> tpiece E X (tc_ts cs) t = Some (Done (ts, t')) ->
    tcstep E X cs (Done (TConc ts (<[j := t']> (tc_thr cs))))
| tc_panic j t : tc_thr cs !! j = Some t -> tpiece E X (tc_ts cs) t = Some Panic -> tcstep E X cs Panic
| tc_call t : is_call t = true -> tcstep E X cs (Done (TConc (tc_ts cs) (tc_thr cs ++ [t]))).
(** Executions in which every new call satisfies [ok] when it is made. *)
Inductive treach (E : ext) (X : lz4x) (ok : tconc -> tthr -> Prop) : tconc -> tconc -> Prop :=
| treach_refl cs : treach E X ok cs cs
| treach_step cs j t ts t' cs2 : tc_thr cs !! j = Some t -> tpiece E X (tc_ts cs) t = Some (Done (ts, t')) ->
    treach E X ok (TConc ts (<[j := t']> (tc_thr cs))) cs2 -> treach E X ok cs cs2
| treach_call cs t cs2 : is_call t = true -> ok cs t ->
    treach E X ok (TConc (tc_ts cs) (tc_thr cs ++ [t])) cs2 -> treach E X ok cs cs2.
