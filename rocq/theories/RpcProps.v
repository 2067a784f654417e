(** Theorems about the RPC methods (C60, C68-C70). *)
From Verif Require Import Base DataModel BincodeModel FilterModel FilterSpec FilterProofs FilterProps ByCommitModel StoreModel StoreSpec StoreProps DispatchModel RpcModel.

(** The minimum slot a request asks for, and the accounts that are in an answer. *)
Definition requested_min (cfg : option gpa_config) : N := default 0 (cfg ≫= fun x => ac_min (gc_account x)).
Definition shows E parse cfg (a : acct) (r : pubkey * ui_account) : Prop := r.1 = d_pubkey a /\ convert E parse a cfg = Done r.2.

Lemma keyed_eq E parse l m c k : keyed E parse l m c = Done k -> Forall2 (shows E parse c) (filter (fun a => m <= d_slot a) l) k.
Proof.
  revert k. induction l as [|a l IH]; intros k H; simpl in H; [injection H as <-; constructor|]. rewrite filter_cons.
  destruct (N.leb_spec m (d_slot a)).
  - rewrite decide_True by done. destruct (convert E parse a c) as [u|] eqn:Hu; [|done]. simpl in H. destruct (keyed E parse l m c) as [k'|]; [|done].
    injection H as <-. constructor; [done|]. by apply IH.
  - rewrite decide_False by lia. by apply IH.
Qed.
Lemma max_slot_ge l a : a ∈ l -> d_slot a <= max_slot l.
Proof. induction l as [|b l IH]; intros H; [by apply elem_of_nil in H|]. simpl. apply elem_of_cons in H as [->|H]; [lia|]. specialize (IH H). lia. Qed.
Lemma max_slot_in l : l <> [] -> exists a, a ∈ l /\ max_slot l = d_slot a.
Proof.
  induction l as [|b l IH]; intros H; [done|]. destruct l as [|b' l].
  - exists b. simpl. split; [left|lia].
  - destruct IH as (a & Ha & Hm); [done|]. cbn [max_slot foldr] in *. unfold max_slot in *. simpl in *. destruct (decide (d_slot b <= N.max (d_slot b') (foldr (λ (a : acct) (m : N), N.max (d_slot a) m) 0 l))).
    + exists a. split; [by right|lia].
    + exists b. split; [left|lia].
Qed.

(** What an RPC filter means on account data. *)
Definition rpc_holds (E : ext) (r : rpc_filter) (d : bytes) : Prop :=
  match r with
  | RDataSize n => lenN d = n
  | RMemcmp off p => exists pat before after, pattern E p = Some pat /\ d = before ++ pat ++ after /\ lenN before = off
  | RTokenAccountState => False
  end.
Definition rpc_decodable (E : ext) (r : rpc_filter) : Prop := match r with RMemcmp _ p => is_Some (pattern E p) | _ => True end.
(** The commitment a request asks for, and the conditions that express its filters. *)
Definition wants (l : option rpc_level) (c : commitment) : Prop :=
  match c with
  | Finalized => l = None \/ l = Some LFinalized \/ l = Some LMax \/ l = Some LRoot
  | Confirmed => l = Some LConfirmed \/ l = Some LSingle \/ l = Some LSingleGossip
  | Processed => l = Some LProcessed \/ l = Some LRecent
  end.
Definition expresses (E : ext) (rs : option (list rpc_filter)) (cs : option (list cond)) : Prop :=
  match rs, cs with
  | None, None => True
  | Some rs, Some cs => Forall2 (fun r c => rpc_decodable E r -> forall d, holds E c d <-> rpc_holds E r d) rs cs
  | _, _ => False
  end.
Lemma wants_of l : wants l (commitment_of (default LFinalized l)).
Proof. destruct l as [[]|]; simpl; auto. Qed.
Lemma expresses_of E rs cs : match rs with None => Done None | Some l => cs ← convert_filters E l; Done (Some cs) end = Done cs -> expresses E rs cs.
Proof.
  destruct rs as [rs|]; [|by intros [= <-]]. destruct (convert_filters E rs) as [x|] eqn:H; [|done]. simpl. intros [= <-]. simpl.
  revert x H. induction rs as [|r rs IH]; intros x H; simpl in H; [injection H as <-; constructor|].
  destruct (from_rpc E r) as [c|] eqn:Hr; [|done]. simpl in H. destruct (convert_filters E rs) as [x'|]; [|done]. injection H as <-. constructor; [|by apply IH].
  destruct r as [n|off p|]; simpl in Hr; [injection Hr as <-; done|injection Hr as <-|done]. intros [pat Hp] d. simpl. simpl in Hp.
  assert (rpc_memcmp_bytes E p = Some pat) as -> by (by destruct p). simpl. split; intros (q & bf & af & Hq & Hd); exists q, bf, af; [injection Hq as <-; by rewrite Hp|].
  rewrite Hp in Hq. by injection Hq as <-.
Qed.

(** C60: for an arbitrary storage, an answer with context shows exactly the accounts of the storage's answer to the same query
    (program, filters, commitment) that are not older than the requested minimum, in the same order, and its slot is that of the
    newest account (0 if there is none). *)
Theorem C60_with_context : forall S E parse pk_of (J : iface S) st prog cfg slot k,
  rpc_gpa E parse pk_of J st prog cfg = Done (RContext slot k) ->
  exists p fl c l, pk_of prog = Some p /\ expresses E (cfg ≫= gc_filters) fl /\ wants (cfg ≫= fun x => ac_commitment (gc_account x)) c /\
    i_gpa J st p fl c = Done (ROk l) /\
    Forall2 (shows E parse (gc_account <$> cfg)) (filter (fun a => requested_min cfg <= d_slot a) l) k /\
    (forall a, a ∈ l -> d_slot a <= slot) /\ (l <> [] -> exists a, a ∈ l /\ slot = d_slot a) /\ (l = [] -> slot = 0).
Proof.
  intros S E parse pk_of J st prog cfg slot k H. unfold rpc_gpa in H. destruct (pk_of prog) as [p|]; [|done].
  match type of H with context [match cfg ≫= gc_filters with _ => _ end] => set (r := match cfg ≫= gc_filters with None => Done None | Some l => _ end) in H end.
  destruct r as [fl|] eqn:Hr; [|done]. simpl in H. apply expresses_of in Hr. pose proof (wants_of (cfg ≫= fun x => ac_commitment (gc_account x))) as Hw.
  set (c := commitment_of _) in H, Hw. destruct (i_gpa J st p fl c) as [[l|]|] eqn:Hg; [|done|done]. simpl in H.
  set (m := default 0 _) in H. destruct (keyed E parse l m (gc_account <$> cfg)) as [k'|] eqn:Hk; [|done]. simpl in H.
  exists p, fl, c, l. do 4 (split; [done|]).
  destruct cfg as [[cf ca cw]|]; [|done]. simpl in *. destruct (default false cw); [|done]. injection H as <- <-.
  split; [by apply keyed_eq|]. split; [apply max_slot_ge|]. split; [apply max_slot_in|by intros ->].
Qed.
Print Assumptions C60_with_context.
(** Without context the minimum is ignored: everything is shown. *)
Theorem C60_without_context : forall S E parse pk_of (J : iface S) st prog cfg k,
  rpc_gpa E parse pk_of J st prog cfg = Done (RPlain k) ->
  exists p fl c l, pk_of prog = Some p /\ expresses E (cfg ≫= gc_filters) fl /\ wants (cfg ≫= fun x => ac_commitment (gc_account x)) c /\
    i_gpa J st p fl c = Done (ROk l) /\ Forall2 (shows E parse (gc_account <$> cfg)) l k.
Proof.
  intros S E parse pk_of J st prog cfg k H. unfold rpc_gpa in H. destruct (pk_of prog) as [p|]; [|done].
  match type of H with context [match cfg ≫= gc_filters with _ => _ end] => set (r := match cfg ≫= gc_filters with None => Done None | Some l => _ end) in H end.
  destruct r as [fl|] eqn:Hr; [|done]. simpl in H. apply expresses_of in Hr. pose proof (wants_of (cfg ≫= fun x => ac_commitment (gc_account x))) as Hw.
  set (c := commitment_of _) in H, Hw. destruct (i_gpa J st p fl c) as [[l|]|] eqn:Hg; [|done|done]. simpl in H.
  set (m := default 0 _) in H. destruct (keyed E parse l m (gc_account <$> cfg)) as [k'|] eqn:Hk; [|done]. simpl in H.
  exists p, fl, c, l. do 4 (split; [done|]).
  assert (m = 0 /\ k' = k) as [Hm ->].
  { destruct cfg as [[cf ca cw]|]; simpl in *; [|by injection H as <-]. destruct (default false cw); [done|]. by injection H as <-. }
  rewrite Hm in Hk. apply keyed_eq in Hk.
  assert (filter (fun a => 0 <= d_slot a) l = l) as Hf; [|by rewrite Hf in Hk].
  clear. induction l as [|a l IH]; [done|]. rewrite filter_cons, decide_True by lia. by rewrite IH.
Qed.
Print Assumptions C60_without_context.
(** Reads of one account: the slot is the account's, or 0. *)
Theorem C60_account_info : forall S E parse pk_of (J : iface S) st key cfg slot o,
  rpc_account E parse pk_of J st key cfg = Done (RContext slot o) ->
  exists pk c, pk_of key = Some pk /\ wants (cfg ≫= ac_commitment) c /\
    match o with
    | Some u => exists a, i_get J st pk c = Done (ROk (Some a)) /\ slot = d_slot a /\ convert E parse a cfg = Done u
    | None => slot = 0 /\ i_get J st pk c = Done (ROk None)
    end.
Proof.
  intros S E parse pk_of J st key cfg slot o H. unfold rpc_account in H. destruct (pk_of key) as [pk|]; [|done].
  pose proof (wants_of (cfg ≫= ac_commitment)) as Hw. set (c := commitment_of _) in H, Hw.
  destruct (i_get J st pk c) as [[[a|]|]|] eqn:Hg; [| |done|done]; simpl in H.
  - destruct (convert E parse a cfg) as [u|] eqn:Hu; [|done]. simpl in H. injection H as <- <-. exists pk, c. split; [done|]. eauto.
  - injection H as <- <-. exists pk, c. done.
Qed.
Print Assumptions C60_account_info.

(** ** The in-memory store behind the RPC server *)
Definition Jmem (E : ext) (F : filt) : iface store :=
  Iface (update_account F) (init_account F) get_account (get_program_accounts E F) (process_slot F) (create_snapshot E F) (load_from_snapshot F).
Definition no_parse (_ _ : pubkey) (_ : bytes) : option bytes := None.
Definition pk_le (s : bytes) : option pubkey := if decide (length s = 32%nat) then Some (unle s) else None.
Definition cfg_of (fl : option (list rpc_filter)) (l : rpc_level) (m : option N) (ctx : option bool) : option gpa_config :=
  Some (GpaConfig fl (AccConfig None None (Some l) m) ctx).
(** Three accounts of one program, of slots 10, 12 and 14. *)
Definition h3 : list (filt * op) := [upd (mk_acct 5 7 1 (bs [1;8]) 10 1) Finalized; upd (mk_acct 6 7 1 (bs [2;8]) 12 2) Finalized; upd (mk_acct 8 7 1 (bs [3]) 14 3) Finalized].
Definition ask (h : list (filt * op)) := rpc_gpa ext_sample no_parse pk_le (Jmem ext_sample admit_all) (final h) (le 32 7).
Example C60_example_hyps : exists k, ask h3 (cfg_of None LFinalized (Some 12) (Some true)) = Done (RContext 14 k) /\ k.*1 = [6; 8] /\
  exists k', ask h3 (cfg_of None LFinalized (Some 12) None) = Done (RPlain k') /\ k'.*1 = [5; 6; 8].
Proof. eexists. split; [vm_compute; reflexivity|]. split; [by vm_compute|]. eexists. split; [vm_compute; reflexivity|by vm_compute]. Qed.
Example C60_example_account : exists u, rpc_account ext_sample no_parse pk_le (Jmem ext_sample admit_all) (final h3) (le 32 6) None = Done (RContext 12 (Some u)).
Proof. eexists. vm_compute. reflexivity. Qed.

(** C68.  With decodable patterns, every account shown is a stored version owned by the program that satisfies every filter of the request. *)
Theorem C68_filters_hold_partial : forall E F parse pk_of st prog cfg k ans r, reachable E st ->
  rpc_gpa E parse pk_of (Jmem E F) st prog cfg = Done ans -> (exists slot, ans = RContext slot k) \/ ans = RPlain k -> r ∈ k ->
  (forall l x, cfg ≫= gc_filters = Some l -> x ∈ l -> rpc_decodable E x) ->
  exists p a c, pk_of prog = Some p /\ wants (cfg ≫= fun x => ac_commitment (gc_account x)) c /\ version_at st r.1 c = Some a /\ d_owner a = p /\ u_owner r.2 = p /\ u_lamports r.2 = d_lamports a /\
    (forall l x, cfg ≫= gc_filters = Some l -> x ∈ l -> exists d, plain E a d /\ rpc_holds E x d).
Proof.
  intros E F parse pk_of st prog cfg k ans r Hr H Hans Hin Hdec. unfold rpc_gpa in H. destruct (pk_of prog) as [p|]; [|by injection H as <-; destruct Hans as [[? ?]|?]].
  match type of H with context [match cfg ≫= gc_filters with _ => _ end] => set (fr := match cfg ≫= gc_filters with None => Done None | Some l => _ end) in H end.
  destruct fr as [fl|] eqn:Hfr; [|done]. simpl in H.
  pose proof (wants_of (cfg ≫= fun x => ac_commitment (gc_account x))) as Hw.
  set (c := commitment_of _) in H, Hw. destruct (get_program_accounts E F st p fl c) as [[l|]|] eqn:Hg; [|by injection H as <-; destruct Hans as [[? ?]|?]|done]. simpl in H.
  set (m := default 0 _) in H. destruct (keyed E parse l m (gc_account <$> cfg)) as [k'|] eqn:Hk; [|done]. simpl in H.
  assert (k' = k) as ->. { destruct (default false (cfg ≫= gc_with_context)); injection H as <-; destruct Hans as [[? Ha]|Ha]; try done; by injection Ha. }
  apply keyed_eq in Hk. apply elem_of_list_lookup in Hin as [i Hi]. destruct (Forall2_lookup_r _ _ _ _ _ Hk Hi) as (b & Hb & Hpk & Hu).
  apply elem_of_list_lookup_2, elem_of_list_filter in Hb as [_ Hb].
  destruct (C20_program_query_sound E F st p fl c l b Hr Hg Hb) as (a & Hv & Hs & Ho & Hm). destruct Hs as (Hs1 & Hs2 & Hs3 & _).
  exists p, a, c. rewrite Hpk. split; [done|]. split; [done|]. split; [done|]. split; [by rewrite <- Hs3|].
  unfold convert in Hu. destruct (to_solana E (d_account b)) as [sb|] eqn:Hsb; [|done]. simpl in Hu. injection Hu as Hu.
  unfold to_solana in Hsb. destruct (data_bytes E (d_data b)) as [db|]; [|done]. simpl in Hsb. injection Hsb as <-. rewrite <- Hu. simpl.
  split; [done|]. split; [done|]. intros lf x Hlf Hx. unfold fr in Hfr. rewrite Hlf in Hfr. destruct (convert_filters E lf) as [cs|] eqn:Hcs; [|done]. simpl in Hfr. injection Hfr as <-.
  assert (exists cx, from_rpc E x = Done cx /\ cx ∈ cs) as (cx & Hcx & Hcin).
  { clear - Hcs Hx. revert cs Hcs. induction lf as [|y lf IH]; intros cs Hcs; [by apply elem_of_nil in Hx|]. simpl in Hcs.
    destruct (from_rpc E y) as [cy|] eqn:Hy; [|done]. simpl in Hcs. destruct (convert_filters E lf) as [cs'|]; [|done]. simpl in Hcs. injection Hcs as <-.
    apply elem_of_cons in Hx as [->|Hx]; [exists cy; split; [done|left]|]. destruct (IH Hx cs' eq_refl) as (cx & ? & ?). exists cx. split; [done|by right]. }
  destruct (Hm cs cx eq_refl Hcin) as (d & Hd & Hh). exists d. split; [done|]. specialize (Hdec lf x Hlf Hx).
  destruct x as [n|off pat|]; simpl in Hcx; [injection Hcx as <-; exact Hh|injection Hcx as <-|done]. simpl in *. destruct Hh as (pt & bf & af & Hpt & H1 & H2). exists pt, bf, af. split; [|done].
  destruct Hdec as [q Hq]. injection Hpt as <-. destruct pat; simpl in *; rewrite Hq; done.
Qed.
Print Assumptions C68_filters_hold_partial.
(** An undecodable pattern is taken for the empty pattern, which every account satisfies. *)
Definition bad_cfg := cfg_of (Some [RMemcmp 0 (MBase58 [])]) LFinalized None None.
Theorem C68_refuted : exists h cfg k, run ext_sample store_empty h = Done (final h) /\ ask h cfg = Done (RPlain k) /\ k.*1 = [5; 6; 8] /\
  cfg ≫= gc_filters = Some [RMemcmp 0 (MBase58 [])] /\ (forall d, ~ rpc_holds ext_sample (RMemcmp 0 (MBase58 [])) d) /\
  (forall a, version_at (final h) 5 Finalized = Some a -> acct_allows ext_sample a (RMemcmp 0 (MBase58 [])) = Done false).
Proof.
  exists h3, bad_cfg. eexists. split; [crunch|]. split; [vm_compute; reflexivity|]. split; [by vm_compute|]. split; [done|].
  split; [|intros a H; vm_compute in H; injection H as <-; by vm_compute]. intros d (? & ? & ? & H & _). done.
Qed.
Print Assumptions C68_refuted.
(** A request for initialised token accounts panics. *)
Theorem C68_token_state_refuted : exists h cfg, run ext_sample store_empty h = Done (final h) /\ ask h cfg = Panic.
Proof. exists h3, (cfg_of (Some [RTokenAccountState]) LFinalized None None). split; [crunch|by vm_compute]. Qed.
Print Assumptions C68_token_state_refuted.
Example C68_example_hyps : exists k, ask h3 (cfg_of (Some [RMemcmp 1 (MBase58 (bs [8])); RDataSize 2]) LFinalized None None) = Done (RPlain k) /\ k.*1 = [5; 6] /\
  rpc_decodable ext_sample (RMemcmp 1 (MBase58 (bs [8]))).
Proof. eexists. split; [vm_compute; reflexivity|]. split; [by vm_compute|]. vm_compute. eauto. Qed.

(** C69: the slot of successive answers can go back: once the account is gone it is 0 again. *)
Theorem C69_refuted : exists h h' cfg s s' o o', run ext_sample store_empty h = Done (final h) /\ run ext_sample store_empty (h ++ h') = Done (final (h ++ h')) /\
  rpc_account ext_sample no_parse pk_le (Jmem ext_sample admit_all) (final h) (le 32 8) cfg = Done (RContext s o) /\
  rpc_account ext_sample no_parse pk_le (Jmem ext_sample admit_all) (final (h ++ h')) (le 32 8) cfg = Done (RContext s' o') /\ s' < s.
Proof.
  exists h3, [upd (mk_acct 8 0 0 [] 15 1) Finalized], None, 14, 0. eexists _, _. split; [crunch|]. split; [crunch|]. split; [vm_compute; reflexivity|]. split; [vm_compute; reflexivity|done].
Qed.
Print Assumptions C69_refuted.
(** The same for program queries, when the newest account of the program is closed. *)
Theorem C69_program_refuted : exists h h' k k', ask h (cfg_of None LFinalized None (Some true)) = Done (RContext 14 k) /\
  ask (h ++ h') (cfg_of None LFinalized None (Some true)) = Done (RContext 12 k').
Proof. exists h3, [upd (mk_acct 8 0 0 [] 15 1) Finalized]. eexists _, _. split; vm_compute; reflexivity. Qed.
Print Assumptions C69_program_refuted.

(** What holds: while the account stays tracked, two answers that both show it have ascending slots. *)
Theorem C69_shown_accounts_partial : forall E F parse pk_of st h st' key pk cfg s s' u u', reachable E st -> run E st h = Done st' ->
  (forall F p b, (F, OLoad p b) ∉ h) -> pk_of key = Some pk -> tracked_during E st h pk ->
  rpc_account E parse pk_of (Jmem E F) st key cfg = Done (RContext s (Some u)) ->
  rpc_account E parse pk_of (Jmem E F) st' key cfg = Done (RContext s' (Some u')) -> s <= s'.
Proof.
  intros E F parse pk_of st h st' key pk cfg s s' u u' Hr Hrun Hno Hpk Htr H H'. unfold rpc_account in H, H'. rewrite Hpk in H, H'. set (c := commitment_of _) in H, H'. simpl in H, H'.
  assert (reachable E st') as Hr'. { destruct Hr as [h0 Hh0]. exists (h0 ++ h). rewrite StoreSlot.run_app, Hh0. exact Hrun. }
  destruct (get_account st pk c) as [[[a|]|]|] eqn:Ha; [|done..]. destruct (get_account st' pk c) as [[[a'|]|]|] eqn:Ha'; [|done..]. simpl in H, H'.
  destruct (convert E parse a cfg); [|done]. destruct (convert E parse a' cfg); [|done]. injection H as <- _. injection H' as <- _.
  destruct (proj1 (C23_reads_never_serve_closed_partial E F st pk 0 [] c Hr) a Ha) as [_ Hv].
  destruct (proj1 (C23_reads_never_serve_closed_partial E F st' pk 0 [] c Hr') a' Ha') as [_ Hv'].
  destruct (C17_reads_never_go_back E st h st' pk c a Hr Hrun Hno Htr Hv) as (x & Hx & Hle). rewrite Hv' in Hx. injection Hx as <-. unfold ByCommitSpec.version_le in Hle. lia.
Qed.
Print Assumptions C69_shown_accounts_partial.
Example C69_example_hyps : let h := [upd (mk_acct 8 7 1 (bs [4]) 16 1) Finalized] in run ext_sample (final h3) h = Done (final (h3 ++ h)) /\ exists u u',
  rpc_account ext_sample no_parse pk_le (Jmem ext_sample admit_all) (final h3) (le 32 8) None = Done (RContext 14 (Some u)) /\
  rpc_account ext_sample no_parse pk_le (Jmem ext_sample admit_all) (final (h3 ++ h)) (le 32 8) None = Done (RContext 16 (Some u')).
Proof. intros h. split; [crunch|]. eexists _, _. split; vm_compute; reflexivity. Qed.

(** C70: what is shown of an account.  Base64 text stands for exactly the requested part of the stored data, and the other fields are
    the stored ones. *)
Definition wanted (d : bytes) (s : option (N * N)) (x : bytes) : Prop :=
  match s with
  | None => x = d
  | Some (off, len) => exists before after, d = before ++ x ++ after /\ lenN x <= len /\
      ((lenN before = off /\ (lenN x = len \/ after = [])) \/ (lenN d <= off /\ x = []))
  end.
Theorem C70_base64_exact : forall E parse a cfg u d, convert E parse a cfg = Done u -> plain E a d ->
  (cfg ≫= ac_encoding = None \/ cfg ≫= ac_encoding = Some UBase64 \/ cfg ≫= ac_encoding = Some UBase64Zstd) ->
  u_lamports u = d_lamports a /\ u_owner u = d_owner a /\ u_exec u = a_executable (d_account a) /\ u_rent u = a_rent_epoch (d_account a) /\
  u_space u = lenN d /\ exists x, u_data u = UText x (default UBase64 (cfg ≫= ac_encoding)) /\ wanted d (cfg ≫= ac_slice) x.
Proof.
  intros E parse a cfg u d Hu Hd Henc. unfold convert, to_solana in Hu. unfold plain in Hd. rewrite Hd in Hu. simpl in Hu. injection Hu as <-. simpl.
  split; [done|]. split; [done|]. split; [done|]. split; [done|]. split; [done|].
  exists (slice_data d (cfg ≫= ac_slice)). split; [destruct Henc as [->|[-> | ->]]; reflexivity|].
  destruct (cfg ≫= ac_slice) as [[off len]|]; simpl; [|done].
  destruct (N.leb_spec (lenN d) off) as [Ho|Ho].
  { exists d, []. split; [by rewrite !app_nil_r|]. split; [unfold lenN; simpl; lia|]. by right. }
  exists (take (N.to_nat off) d). assert (lenN (take (N.to_nat off) d) = off) as Hb by (unfold lenN in *; rewrite take_length; lia).
  destruct (N.ltb_spec (lenN d - off) len) as [Hl|Hl].
  - exists []. rewrite app_nil_r, take_drop. split; [done|]. split; [unfold lenN in *; rewrite drop_length; lia|]. left. split; [done|by right].
  - exists (drop (N.to_nat len) (drop (N.to_nat off) d)). rewrite take_drop, take_drop. split; [done|].
    assert (lenN (take (N.to_nat len) (drop (N.to_nat off) d)) = len) as Hx by (unfold lenN in *; rewrite take_length, drop_length; lia).
    split; [lia|]. left. split; [done|by left].
Qed.
Print Assumptions C70_base64_exact.
Example C70_example_hyps : let a := mk_acct 5 7 1 (bs [1;8;9]) 10 1 in let cfg := Some (AccConfig None (Some (1, 5)) None None) in
  exists u, convert ext_sample no_parse a cfg = Done u /\ plain ext_sample a (bs [1;8;9]) /\ u_data u = UText (bs [8;9]) UBase64.
Proof. eexists. split; [vm_compute; reflexivity|]. split; [done|by vm_compute]. Qed.
(** Base58 text is dropped when it stands for more than 128 bytes: every token account is shown without its data. *)
Theorem C70_base58_refuted : exists a u, convert ext_sample no_parse a (Some (AccConfig (Some UBase58) None None None)) = Done u /\
  data_len (d_data a) = 165 /\ u_data u = UTooLong UBase58.
Proof. exists (mk_acct 5 7 1 (replicate 165 "000"%byte) 10 1). eexists. split; [vm_compute; reflexivity|]. split; by vm_compute. Qed.
Print Assumptions C70_base58_refuted.
