(** Snapshots fetched over RPC (C103). *)
From Verif Require Import Base SMap DataModel BincodeModel BincodeProofs FilterModel FilterProps ByCommitModel StoreModel StoreSpec StoreProofs StoreSlot StoreViews StoreHist StoreProps SnapshotProps DispatchModel Base58Model Base58Proofs RpcModel.
From Verif Require SplModel TokenUtilsModel TokenStoreModel TokenSnapSpec TokenSnapProps Lz4Model.

(** C103: every answer to getSnapshot.  The parameter must be the base58 text of 32 bytes; the answer carries the bytes of the storage's snapshot, or is an error if and
    only if the storage gives one. *)
Theorem C103_snapshot_answers : forall S (J : iface S) st text r, rpc_snapshot pk_parse J st text = Done r ->
  match r with
  | RPlain b => exists p, text = pk_text p /\ p < 2 ^ 256 /\ i_snapshot J st p = Done (ROk b)
  | RInternalError => exists p e, text = pk_text p /\ p < 2 ^ 256 /\ i_snapshot J st p = Done (RErr e)
  | RInvalidParams => forall p, p < 2 ^ 256 -> text <> pk_text p
  | RContext _ _ => False
  end.
Proof.
  intros S J st text r H. unfold rpc_snapshot in H. destruct (pk_parse text) as [p|] eqn:Hp.
  - apply pk_parse_text in Hp as [-> Hlt]. destruct (i_snapshot J st p) as [[b|e]|] eqn:Hs; [| |done]; injection H as <-; eauto.
  - injection H as <-. intros p Hlt ->. by rewrite pk_round in Hp.
Qed.
Print Assumptions C103_snapshot_answers.
Lemma gpa_count E F st p l : st_ok st -> get_program_accounts E F st p None Finalized = Done (ROk l) -> (length l <= length (st_accounts st))%nat.
Proof.
  intros Hok Hl. pose proof (NoDup_map_inv _ _ (gpa_nodup _ _ _ _ _ _ _ Hok Hl)) as Hnd.
  assert (length (map (fun a => default 0%nat (st_index st !! d_pubkey a)) l) <= length (seq 0 (length (st_accounts st))))%nat as H.
  { apply submseteq_length, NoDup_submseteq.
    - apply NoDup_fmap_2_strong; [|done]. intros x y Hx Hy Hxy.
      apply (snap_entry E F st p l Hl) in Hx as (i & bi & _ & Hbi & Hgi & _).
      apply (snap_entry E F st p l Hl) in Hy as (j & bj & _ & Hbj & Hgj & _).
      rewrite (entry_index st i bi _ x Hok Hbi Hgi), (entry_index st j bj _ y Hok Hbj Hgj) in Hxy. simpl in Hxy. congruence.
    - intros i (a & -> & Ha)%elem_of_list_fmap.
      apply (snap_entry E F st p l Hl) in Ha as (j & bj & _ & Hbj & Hgj & _).
      rewrite (entry_index st j bj _ a Hok Hbj Hgj). simpl. apply elem_of_seq. apply lookup_lt_Some in Hbj. lia. }
  by rewrite map_length, seq_length in H.
Qed.
(** C103: of an in-memory store the bytes load into an empty store that admits the program, which then answers as the original does at finalized. *)
Theorem C103_snapshot_loads_partial : forall E X ord F h st F' text bytes,
  run E store_empty h = Done st -> (forall F o a, (F, o) ∈ h -> delivers o a -> acct_in_range a) -> lenN (st_accounts st) < 2 ^ 64 ->
  rpc_snapshot pk_parse (child_iface E X F ord) (CMem st) text = Done (RPlain bytes) ->
  exists p l, text = pk_text p /\ get_program_accounts E F st p None Finalized = Done (ROk l) /\
   ((forall a, d_owner a = p -> fl_sat F' a = true) ->
    exists st', load_from_snapshot F' store_empty p bytes = Done (st', ROk tt) /\
    (forall fl c l1, fl_contains F (AFilter [] (Some p) fl) = true ->
       get_program_accounts E F st p fl Finalized = Done (ROk l1) ->
       exists l2, get_program_accounts E F st' p fl c = Done (ROk l2) /\ Permutation l2 l1) /\
    (forall a c, a ∈ l -> get_account st' (d_pubkey a) c = get_account st (d_pubkey a) Finalized)).
Proof.
  intros E X ord F h st F' text bytes Hrun Hran Hlen Hr. apply C103_snapshot_answers in Hr as (p & -> & _ & Hs). simpl in Hs.
  pose proof Hs as Hs'. unfold create_snapshot in Hs'. destruct (get_program_accounts E F st p None Finalized) as [[l|]|] eqn:Hl; [|done|done]. exists p, l. split; [done|]. split; [done|].
  intros HF. destruct (C29_snapshot_round_trip_partial E h st F F' p bytes l) as (st' & H1 & H2 & H3 & _); try done; [|by exists st'].
  assert (st_ok st) as Hok by (eapply run_ok; [apply st_ok_empty|done]).
  pose proof (gpa_count E F st p l Hok Hl) as Hc. unfold lenN in *. lia.
Qed.
Print Assumptions C103_snapshot_loads_partial.
Example C103_snapshot_loads_example : exists bytes,
  run ext_sample store_empty ex_store = Done (final ex_store) /\ (forall F o a, (F, o) ∈ ex_store -> delivers o a -> acct_in_range a) /\ lenN (st_accounts (final ex_store)) < 2 ^ 64 /\
  rpc_snapshot pk_parse (child_iface ext_sample Lz4Model.lz4_sample admit_all map_to_list) (CMem (final ex_store)) (pk_text 7) = Done (RPlain bytes) /\
  unbincode_accounts bytes = Some [acc5 10 1].
Proof.
  exists (bincode_accounts [acc5 10 1]). destruct C29_example_hyps as (st & l & H1 & H2 & _). split; [crunch|]. split; [done|]. split; [vm_compute; reflexivity|]. split; by vm_compute.
Qed.
(** Not a key; and a program that is not configured. *)
Example C103_snapshot_answers_example : exists b,
  rpc_snapshot pk_parse (child_iface ext_sample Lz4Model.lz4_sample admit_all map_to_list) (CMem (final ex_store)) (pk_text 7) = Done (RPlain b) /\
  rpc_snapshot pk_parse (child_iface ext_sample Lz4Model.lz4_sample admit_all map_to_list) (CMem (final ex_store)) (bs [48]) = Done RInvalidParams /\
  rpc_snapshot pk_parse (child_iface ext_sample Lz4Model.lz4_sample (Filt (fun _ => true) (fun _ => false)) map_to_list) (CMem (final ex_store)) (pk_text 7) = Done RInternalError.
Proof. eexists. split; [vm_compute; reflexivity|]. split; by vm_compute. Qed.

(** FINDING: what the server of main.rs, whose storage is a token store, answers to getSnapshot cannot be loaded by the same kind of storage. *)
Theorem C103_server_snapshot_refuted : exists E X F ord ops ts text p bytes e,
  TokenSnapSpec.lawful X /\ TokenStoreModel.ts_run E X TokenStoreModel.ts_empty ops = Done ts /\ text = pk_text p /\
  rpc_snapshot pk_parse (child_iface E X F ord) (CTok ts) text = Done (RPlain bytes) /\
  i_load (child_iface E X F ord) (CTok TokenStoreModel.ts_empty) p bytes = Done (CTok TokenStoreModel.ts_empty, RErr e).
Proof.
  destruct TokenSnapProps.C51_refuted as (X & l & c & e & H1 & _ & H2 & H3 & H4).
  eexists _, X, admit_all, map_to_list, l, _, _, SplModel.spl_token_id, c, e. split; [done|]. split; [exact H2|]. split; [reflexivity|]. split.
  - unfold rpc_snapshot. rewrite pk_round by (vm_compute; reflexivity). simpl. by rewrite H3.
  - simpl. by rewrite H4.
Qed.
Print Assumptions C103_server_snapshot_refuted.
