(** What the RPC methods answer in every case (C60), and that filters of a request only narrow its answer (C68). *)
From Verif Require Import Base DataModel BincodeModel FilterModel FilterSpec FilterProofs FilterProps ByCommitModel ByCommitSpec StoreModel StoreSpec StoreProofs StoreViews StoreSlot StoreProps DispatchModel RpcModel RpcProps.

Lemma wants_fun l c : wants l c -> c = commitment_of (default LFinalized l).
Proof. destruct c; simpl; intros H; destruct_or?; subst; reflexivity. Qed.
Lemma convert_done E parse a cfg d : plain E a d -> exists u, convert E parse a cfg = Done u.
Proof. intros H. unfold convert, to_solana. change (data_bytes E (a_data (d_account a)) = Done d) in H. rewrite H. simpl. eauto. Qed.
Lemma keyed_done E parse l m cfg : Forall (fun a => exists d, plain E a d) l -> exists k, keyed E parse l m cfg = Done k.
Proof.
  induction 1 as [|a l [d Hd] Hl [k IH]]; simpl; [eauto|]. destruct (m <=? d_slot a); [|eauto].
  destruct (convert_done E parse a cfg d Hd) as [u ->]. simpl. rewrite IH. simpl. eauto.
Qed.
Lemma convert_filters_done E l : Forall (fun r => r <> RTokenAccountState) l -> exists cs, convert_filters E l = Done cs.
Proof. induction 1 as [|r l Hr Hl [cs IH]]; simpl; [eauto|]. destruct r; [| |done]; simpl; rewrite IH; simpl; eauto. Qed.

(** C60, getAccountInfo: the answer is determined by the key and by what the storage says about the account at the wanted commitment. *)
Theorem C60_account_info_answers : forall S E parse pk_of (J : iface S) st key cfg c, wants (cfg ≫= ac_commitment) c ->
  (pk_of key = None -> rpc_account E parse pk_of J st key cfg = Done RInvalidParams) /\
  (forall pk e, pk_of key = Some pk -> i_get J st pk c = Done (RErr e) -> rpc_account E parse pk_of J st key cfg = Done RInternalError) /\
  (forall pk, pk_of key = Some pk -> i_get J st pk c = Done (ROk None) -> rpc_account E parse pk_of J st key cfg = Done (RContext 0 None)) /\
  (forall pk a d, pk_of key = Some pk -> i_get J st pk c = Done (ROk (Some a)) -> plain E a d ->
     exists u, rpc_account E parse pk_of J st key cfg = Done (RContext (d_slot a) (Some u)) /\ convert E parse a cfg = Done u).
Proof.
  intros S E parse pk_of J st key cfg c ->%wants_fun. unfold rpc_account. split; [by intros ->|]. split; [by intros pk e -> ->|]. split; [by intros pk -> ->|].
  intros pk a d -> -> Hd. simpl. destruct (convert_done E parse a cfg d Hd) as [u Hu]. exists u. by rewrite Hu.
Qed.
Print Assumptions C60_account_info_answers.
(** C60, getProgramAccounts: unless a filter on the token account state is asked for, the request reaches the storage, a refusal of the storage is an
    internal error, and readable accounts are answered, with context exactly when the request asks for it. *)
Theorem C60_program_answers : forall S E parse pk_of (J : iface S) st prog cfg c, wants (cfg ≫= fun x => ac_commitment (gc_account x)) c ->
  (pk_of prog = None -> rpc_gpa E parse pk_of J st prog cfg = Done RInternalError) /\
  (forall p, pk_of prog = Some p -> (forall rs, cfg ≫= gc_filters = Some rs -> RTokenAccountState ∉ rs) ->
     exists fl, expresses E (cfg ≫= gc_filters) fl /\
       (forall e, i_gpa J st p fl c = Done (RErr e) -> rpc_gpa E parse pk_of J st prog cfg = Done RInternalError) /\
       (forall l, i_gpa J st p fl c = Done (ROk l) -> (forall a, a ∈ l -> exists d, plain E a d) ->
          exists k slot, rpc_gpa E parse pk_of J st prog cfg = Done (if decide (cfg ≫= gc_with_context = Some true) then RContext slot k else RPlain k))).
Proof.
  intros S E parse pk_of J st prog cfg c ->%wants_fun. unfold rpc_gpa. split; [by intros ->|]. intros p -> Hno.
  assert (exists fl, match cfg ≫= gc_filters with None => Done None | Some l => cs ← convert_filters E l; Done (Some cs) end = Done fl) as [fl Hfl].
  { destruct (cfg ≫= gc_filters) as [rs|]; [|eauto]. destruct (convert_filters_done E rs) as [cs ->]; [|simpl; eauto].
    apply Forall_forall. intros r Hr ->. by apply (Hno rs eq_refl). }
  exists fl. split; [by apply expresses_of|]. rewrite Hfl. simpl. split; [by intros e ->|]. intros l -> Hl. simpl.
  match goal with |- context [keyed E parse l ?m ?cc] => destruct (keyed_done E parse l m cc) as [k ->] end; [by apply Forall_forall|]. simpl.
  exists k, (max_slot l). destruct (cfg ≫= gc_with_context) as [[]|]; reflexivity.
Qed.
Print Assumptions C60_program_answers.
Example C60_example_answers : wants None Finalized /\ pk_le (le 32 6) = Some 6 /\ pk_le [] = None /\
  (exists a d, i_get (Jmem ext_sample admit_all) (final h3) 6 Finalized = Done (ROk (Some a)) /\ plain ext_sample a d) /\
  i_get (Jmem ext_sample admit_all) (final h3) 7 Finalized = Done (ROk None) /\
  (exists l, i_gpa (Jmem ext_sample admit_all) (final h3) 7 None Finalized = Done (ROk l) /\ length l = 3%nat /\ forall a, a ∈ l -> exists d, plain ext_sample a d).
Proof.
  split; [by left|]. split; [by vm_compute|]. split; [done|]. split; [eexists _, _; split; [vm_compute; reflexivity|reflexivity]|]. split; [by vm_compute|].
  eexists. split; [vm_compute; reflexivity|]. split; [done|]. intros a Ha. rewrite !elem_of_cons, elem_of_nil in Ha. destruct_or?; subst; try done; eexists; reflexivity.
Qed.

(** C68.  The same request with and without its filters: the filtered answer shows exactly those live accounts of the unfiltered one
    whose stored data satisfies every filter, and shows them the same.  (Patterns decode; recorded lengths are right.) *)
Definition holds_accounts (ans : rpc_answer (list (pubkey * ui_account))) (k : list (pubkey * ui_account)) : Prop := (exists slot, ans = RContext slot k) \/ ans = RPlain k.
Lemma gpa_parts E F parse pk_of st prog cfg ans k : rpc_gpa E parse pk_of (Jmem E F) st prog cfg = Done ans -> holds_accounts ans k ->
  exists p fl l, pk_of prog = Some p /\ expresses E (cfg ≫= gc_filters) fl /\
    get_program_accounts E F st p fl (commitment_of (default LFinalized (cfg ≫= fun x => ac_commitment (gc_account x)))) = Done (ROk l) /\
    keyed E parse l (default 0 (cfg ≫= fun x => if default false (gc_with_context x) then ac_min (gc_account x) else None)) (gc_account <$> cfg) = Done k.
Proof.
  intros H Ha. unfold rpc_gpa in H. destruct (pk_of prog) as [p|]; [|by injection H as <-; destruct Ha as [[? ?]|?]].
  match type of H with context [match cfg ≫= gc_filters with _ => _ end] => set (fr := match cfg ≫= gc_filters with None => Done None | Some l => _ end) in H end.
  destruct fr as [fl|] eqn:Hfr; [|done]. apply expresses_of in Hfr. cbn [i_gpa Jmem] in H. simpl in H.
  destruct (get_program_accounts E F st p fl _) as [[l|]|] eqn:Hg in H; [|by injection H as <-; destruct Ha as [[? ?]|?]|done]. simpl in H.
  destruct (keyed E parse l _ _) as [k'|] eqn:Hk in H; [|done]. simpl in H. exists p, fl, l. do 3 (split; [done|]). rewrite Hk. f_equal.
  destruct (default false (cfg ≫= gc_with_context)); injection H as <-; destruct Ha as [[? Ha]|Ha]; try done; by injection Ha.
Qed.
Lemma keyed_elem E parse l m cfg k r : keyed E parse l m cfg = Done k -> r ∈ k <-> exists b, b ∈ l /\ m <= d_slot b /\ shows E parse cfg b r.
Proof.
  intros Hk%keyed_eq. split.
  - intros [i Hi]%elem_of_list_lookup. destruct (Forall2_lookup_r _ _ _ _ _ Hk Hi) as (b & Hb & Hs). apply elem_of_list_lookup_2, elem_of_list_filter in Hb as [? ?]. eauto.
  - intros (b & Hb & Hm & Hs). assert (b ∈ filter (fun a => m <= d_slot a) l) as [i Hi]%elem_of_list_lookup by (by apply elem_of_list_filter).
    destruct (Forall2_lookup_l _ _ _ _ _ Hk Hi) as (r' & Hr' & Hs'). apply elem_of_list_lookup_2 in Hr'. destruct Hs as [H1 H2], Hs' as [H3 H4].
    assert (r = r') as ->; [|done]. destruct r as [q u], r' as [q' u']. simpl in *. congruence.
Qed.
Lemma shows_same E parse cfg a b r : same_account E a b -> shows E parse cfg a r -> shows E parse cfg b r /\ d_slot a = d_slot b /\ u_lamports r.2 = d_lamports b.
Proof.
  intros (H1 & H2 & H3 & H4 & H5 & H6 & H7 & H8) [Hk Hu]. unfold shows. rewrite Hk, H1. unfold convert, to_solana in *.
  change (a_data (d_account a)) with (d_data a) in *. change (a_data (d_account b)) with (d_data b). rewrite <- H8. destruct (data_bytes E (d_data a)) as [d|]; [|done]. simpl in *. injection Hu as <-. rewrite <- H1, <- H2, <- H3, <- H4, <- H5. done.
Qed.
Lemma same_sym E a b : same_account E a b -> same_account E b a.
Proof. intros (?&?&?&?&?&?&?&?). by split_and!. Qed.
Lemma expresses_meets E rs fl a d : expresses E (Some rs) fl -> Forall (rpc_decodable E) rs -> plain E a d ->
  meets E fl a <-> forall x, x ∈ rs -> rpc_holds E x d.
Proof.
  destruct fl as [cs|]; [|done]. intros H Hdec Hd. rewrite Forall_forall in Hdec. simpl in H. split.
  - intros Hm x [i Hi]%elem_of_list_lookup. destruct (Forall2_lookup_l _ _ _ _ _ H Hi) as (c & Hc & Hx).
    destruct (Hm cs c eq_refl (elem_of_list_lookup_2 _ _ _ Hc)) as (d' & Hd' & Hh). assert (d' = d) as -> by (unfold plain in *; congruence).
    apply Hx; [|done]. apply Hdec. by eapply elem_of_list_lookup_2.
  - intros Hh l x [= <-] [i Hi]%elem_of_list_lookup. destruct (Forall2_lookup_r _ _ _ _ _ H Hi) as (r & Hr & Hx). exists d. split; [done|].
    apply elem_of_list_lookup_2 in Hr. apply Hx; [by apply Hdec|by apply Hh].
Qed.

Theorem C68_filters_only_narrow_partial : forall E F parse pk_of st prog acfg cw rs ans ans0 k k0 c, reachable E st -> Forall (rpc_decodable E) rs ->
  wants (ac_commitment acfg) c -> (forall pk a, version_at st pk c = Some a -> honest E a) ->
  rpc_gpa E parse pk_of (Jmem E F) st prog (Some (GpaConfig (Some rs) acfg cw)) = Done ans -> holds_accounts ans k ->
  rpc_gpa E parse pk_of (Jmem E F) st prog (Some (GpaConfig None acfg cw)) = Done ans0 -> holds_accounts ans0 k0 ->
  forall r, r ∈ k <-> r ∈ k0 /\ 0 < u_lamports r.2 /\ exists a d, version_at st r.1 c = Some a /\ plain E a d /\ forall x, x ∈ rs -> rpc_holds E x d.
Proof.
  intros E F parse pk_of st prog acfg cw rs ans ans0 k k0 c Hr Hdec Hc Hhon H Ha H0 Ha0 r. pose proof (reachable_ok _ _ Hr) as Hok.
  apply wants_fun in Hc. destruct (gpa_parts _ _ _ _ _ _ _ _ _ H Ha) as (p & fl & l & Hp & Hfl & Hl & Hk). destruct (gpa_parts _ _ _ _ _ _ _ _ _ H0 Ha0) as (p0 & fl0 & l0 & Hp0 & Hfl0 & Hl0 & Hk0).
  simpl in *. rewrite Hp in Hp0. injection Hp0 as <-. destruct fl0; [done|]. rewrite <- Hc in Hl, Hl0.
  set (m := default 0 _) in Hk, Hk0. rewrite (keyed_elem _ _ _ _ _ _ r Hk), (keyed_elem _ _ _ _ _ _ r Hk0). clear Hk Hk0 H Ha H0 Ha0.
  apply gpa_inv in Hl as (_ & Hl & Hdef). apply gpa_inv in Hl0 as (_ & Hl0 & Hdef0).
  assert (forall i b a, st_accounts st !! i = Some b -> bc_get b c = Some a -> version_at st (d_pubkey a) c = Some a /\ honest E a) as Hent.
  { intros i b a Hb Hg. assert (version_at st (d_pubkey a) c = Some a) as Hv; [|eauto]. rewrite (version_at_entry _ _ i b); [done| |done]. by eapply entry_index. }
  split.
  - intros (b & Hb & Hm & Hs). apply Hl in Hb as (i & bb & l' & Hi & Hbb & Hl' & Hin). destruct (gpa_entry_sound _ _ _ _ _ _ _ Hl' Hin) as (a & _ & Hg & Hsa & Ho & Hme & Hal).
    destruct (Hent _ _ _ Hbb Hg) as [Hv Hh]. destruct (Hdef0 _ Hi) as (b2 & l2 & Hb2 & Hl2). rewrite Hbb in Hb2. injection Hb2 as <-.
    destruct (gpa_entry_complete _ _ _ _ _ _ _ Hl2 Hg Ho) as (b0 & -> & Hs0); [done|done|done|].
    destruct (shows_same _ _ _ _ _ _ Hsa Hs) as (Hsh & Hsl & Hla). destruct (shows_same _ _ _ _ _ _ (same_sym _ _ _ Hs0) Hsh) as (Hsh0 & Hsl0 & _).
    split; [exists b0; split; [apply Hl0; exists i, bb, [b0]; split_and!; [done..|left]|split; [lia|done]]|]. split; [rewrite Hla; destruct fl as [fl|]; [by apply Hal|done]|].
    destruct Hh as (d & Hd & _). exists a, d. destruct Hsh as [-> _]. split; [done|]. split; [done|]. by apply (expresses_meets E rs fl a d Hfl Hdec Hd).
  - intros ((b0 & Hb0 & Hm & Hs0) & Hal & a' & d & Hv' & Hd & Hh'). apply Hl0 in Hb0 as (i & bb & l' & Hi & Hbb & Hl' & Hin).
    destruct (gpa_entry_sound _ _ _ _ _ _ _ Hl' Hin) as (a & _ & Hg & Hsa & Ho & _). destruct (Hent _ _ _ Hbb Hg) as [Hv Hh]. destruct (Hdef _ Hi) as (b2 & l2 & Hb2 & Hl2). rewrite Hbb in Hb2. injection Hb2 as <-.
    destruct (shows_same _ _ _ _ _ _ Hsa Hs0) as (Hsh & Hsl & Hla). pose proof (proj1 Hsh) as Hpk. rewrite Hpk, Hv in Hv'. injection Hv' as <-.
    destruct (gpa_entry_complete _ _ _ _ _ _ _ Hl2 Hg Ho) as (b & -> & Hs); [by apply (expresses_meets E rs fl a d Hfl Hdec Hd)|done|intros _; unfold alive; lia|].
    destruct (shows_same _ _ _ _ _ _ (same_sym _ _ _ Hs) Hsh) as (Hsb & Hslb & _). exists b. split; [apply Hl; exists i, bb, [b]; split_and!; [done..|left]|]. split; [lia|done].
Qed.
Print Assumptions C68_filters_only_narrow_partial.
(** Filters [offset 1 = 8] and [size = 2] select two of the three accounts. *)
Example C68_example_narrow : let rs := [RMemcmp 1 (MBase58 (bs [8])); RDataSize 2] in
  reachable ext_sample (final h3) /\ Forall (rpc_decodable ext_sample) rs /\ (forall pk a, version_at (final h3) pk Finalized = Some a -> honest ext_sample a) /\
  (exists k, ask h3 (cfg_of (Some rs) LFinalized None None) = Done (RPlain k) /\ k.*1 = [5; 6]) /\ (exists k0, ask h3 (cfg_of None LFinalized None None) = Done (RPlain k0) /\ k0.*1 = [5; 6; 8]).
Proof.
  intros rs. split; [exists h3; crunch|]. split; [repeat constructor; vm_compute; eauto|]. split.
  - intros pk a (i & b & Hi & Hb & Hg)%version_at_inv. destruct i as [|[|[|i]]]; vm_compute in Hb; try discriminate Hb; injection Hb as <-; vm_compute in Hg; injection Hg as <-; (eexists; split; [reflexivity|by vm_compute]).
  - split; eexists; (split; [vm_compute; reflexivity|by vm_compute]).
Qed.
