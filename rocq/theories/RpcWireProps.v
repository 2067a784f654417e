(** C107: a client that reads the JSON text of an answer finds the accounts of the storage. *)
From Verif Require Import Base DataModel BincodeModel BincodeProofs FilterModel FilterSpec FilterProofs Base58Model Base58Proofs Base64Model EncodingSpec StoreModel StoreSpec DispatchModel RpcModel RpcProps
  RpcSnapshotProps RpcTextModel EncodingProps JsonModel AvecModel AvecSpec JsonSpec JsonProofs JsonGrammar JsonSound FilterJsonSpec RpcWireModel RpcWireSpec.

(** The encodings whose text is modelled, and how the answer shows the data that was asked for: base58 only up to 128 bytes. *)
Definition textual (cfg : option acc_config) : Prop := cfg ≫= ac_encoding <> Some UJsonParsed /\ cfg ≫= ac_encoding <> Some UBase64Zstd.
Definition data_shown (cfg : option acc_config) (d : bytes) (v : json) : Prop :=
  exists x, wanted d (cfg ≫= ac_slice) x /\
    match cfg ≫= ac_encoding with
    | Some UBase58 => lenN x <= 128 -> base58_shown v x
    | Some UBinary => lenN x <= 128 -> legacy_shown v x
    | _ => base64_shown v x
    end.
(** The numbers of the account are [u64]s. *)
Definition fits (E : ext) (a : acct) : Prop :=
  d_lamports a < 2 ^ 64 /\ a_rent_epoch (d_account a) < 2 ^ 64 /\ d_slot a < 2 ^ 64 /\ forall d, plain E a d -> lenN d < 2 ^ 64.

Lemma print_document v : writable v -> (nesting v <= 127)%nat -> document_of (print_json v) v.
Proof.
  intros Hw Hn. assert (json_from_str (print_json v) = Some v) as H.
  { unfold json_from_str, read_json. pose proof (read_text v (print_json v) 127 [] (print_text v Hw) Hn) as H. rewrite app_nil_r in H. rewrite H; [done|]. exact I || by constructor || done. }
  intros v'. rewrite <- json_exact, H. split; [by intros [= ->]|by intros ->].
Qed.
Fixpoint first_entry (k : bytes) (es : list (bytes * json)) : option json :=
  match es with [] => None | (k', x) :: es' => if bool_decide (k' = k) then Some x else first_entry k es' end.
Lemma entry_at k es x : first_entry (key k) es = Some x -> entry k (JObj es) x.
Proof.
  intros H. exists es. split; [done|]. change (txt k) with (key k) in *. unfold has. change (txt k) with (key k). induction es as [|[k' y] es IH]; [done|]. simpl in H. case_bool_decide as Hk.
  - injection H as <-. exists [], es. rewrite Hk. split; [done|apply not_elem_of_nil].
  - destruct (IH H) as (l1 & l2 & -> & Hn). exists ((k', y) :: l1), l2. split; [done|]. simpl. rewrite not_elem_of_cons. split; [congruence|done].
Qed.
Ltac find_entry := apply entry_at; reflexivity.
Ltac distinct := apply NoDup_ListNoDup; vm_compute; repeat constructor; simpl; intuition discriminate.

(** One account. *)
Lemma ui_shown E parse a cfg u : convert E parse a cfg = Done u -> textual cfg -> fits E a ->
  exists d x, plain E a d /\ ui_json u = Some x /\ account_shown (data_shown cfg d) x a d /\ writable x /\ (nesting x <= 2)%nat.
Proof.
  intros Hu [Ht1 Ht2] (Hl & He & _ & Hd). pose proof Hu as Hc. unfold convert, to_solana in Hu. destruct (data_bytes E (d_data a)) as [d|] eqn:Hp; [|done]. specialize (Hd d Hp). simpl in Hu.
  assert (exists x, wanted d (cfg ≫= ac_slice) x /\ x = slice_data d (cfg ≫= ac_slice)) as (y & Hy & Hs).
  { assert (exists u', convert E parse a (Some (AccConfig None (cfg ≫= ac_slice) None None)) = Done u') as [u' Hu'] by (unfold convert, to_solana; rewrite Hp; simpl; eauto).
    destruct (C70_base64_exact E parse a _ u' d Hu' Hp) as (_ & _ & _ & _ & _ & x & Hx & Hw); [by left|]. exists x. split; [done|].
    unfold convert, to_solana in Hu'. rewrite Hp in Hu'. simpl in Hu'. injection Hu' as <-. simpl in Hx. by injection Hx. }
  assert (exists j, data_json (u_data u) = Some j /\ data_shown cfg d j /\ writable j /\ (nesting j <= 1)%nat) as (j & Hj & Hsh & Hw & Hn).
  { injection Hu as <-. unfold data_shown. simpl. rewrite <- Hs. destruct (cfg ≫= ac_encoding) as [[]|]; simpl; try done.
    - destruct (N.leb_spec (lenN y) 128) as [Hle|Hle]; eexists; (split; [reflexivity|]); (split; [exists y; split; [done|]; intros Hle'; first [lia|exists (b58_encode y); split; [done|by apply text58_iff]]|split; [repeat constructor|simpl; lia]]).
    - destruct (N.leb_spec (lenN y) 128) as [Hle|Hle]; eexists; (split; [reflexivity|]); (split; [exists y; split; [done|]; intros Hle'; first [lia|exists (b58_encode y); split; [done|by apply text58_iff]]|split; [repeat constructor|simpl; lia]]).
    - eexists. split; [reflexivity|]. split; [exists y; split; [done|]; exists (b64_encode y); split; [done|apply encode64]|]. split; [repeat constructor|simpl; lia].
    - eexists. split; [reflexivity|]. split; [exists y; split; [done|]; exists (b64_encode y); split; [done|apply encode64]|]. split; [repeat constructor|simpl; lia]. }
  exists d. eexists. split; [done|]. unfold ui_json. rewrite Hj. cbn [mbind option_bind]. split; [reflexivity|]. injection Hu as <-. simpl u_lamports. simpl u_owner. simpl u_exec. simpl u_rent. simpl u_space.
  split.
  { split; [find_entry|]. split; [eexists; split; [find_entry|]; exists (pk_text (d_owner a)); split; [done|by apply text58_iff]|]. split; [find_entry|]. split; [find_entry|]. split; [find_entry|].
    exists j. split; [find_entry|done]. }
  split.
  { constructor; [distinct|]. repeat (apply Forall_cons; split); simpl; try done; by constructor. }
  simpl. lia.
Qed.

Lemma keyed_shown_of E parse cfg a r : shows E parse cfg a r -> textual cfg -> fits E a ->
  exists d x, plain E a d /\ keyed_json r = Some x /\ keyed_shown (data_shown cfg d) x a d /\ writable x /\ (nesting x <= 3)%nat.
Proof.
  intros [Hk Hc] Ht Hf. destruct (ui_shown E parse a cfg r.2 Hc Ht Hf) as (d & x & Hd & Hx & Hs & Hw & Hn). exists d. eexists. split; [done|]. unfold keyed_json. rewrite Hx, Hk. cbn [mbind option_bind].
  split; [reflexivity|]. split; [|split].
  - split; [eexists; split; [find_entry|]; exists (pk_text (d_pubkey a)); split; [done|by apply text58_iff]|]. exists x. split; [find_entry|done].
  - constructor; [distinct|]. repeat (apply Forall_cons; split); simpl; try done; by constructor.
  - simpl. lia.
Qed.
Lemma keyed_list E parse cfg l k : Forall2 (shows E parse cfg) l k -> textual cfg -> Forall (fits E) l ->
  exists vs, mapM keyed_json k = Some vs /\ Forall2 (fun a x => exists d, plain E a d /\ keyed_shown (data_shown cfg d) x a d) l vs /\ Forall writable vs /\ (nesting (JArr vs) <= 4)%nat.
Proof.
  intros H Ht Hf. induction H as [|a r l k Hr _ IH]; [exists []; repeat split; try constructor; simpl; lia|].
  apply Forall_cons in Hf as [Ha Hl]. destruct (IH Hl) as (vs & Hm & Hs & Hw & Hn). destruct (keyed_shown_of _ _ _ _ _ Hr Ht Ha) as (d & x & Hd & Hx & Hk & Hwx & Hnx).
  exists (x :: vs). split; [simpl; rewrite Hx; simpl; by rewrite Hm|]. split; [constructor; [by exists d|done]|]. split; [by constructor|]. simpl in *. lia.
Qed.
Lemma response_ok s v : s < 2 ^ 64 -> writable v -> (nesting v <= 100)%nat -> document_of (print_json (response_json s v)) (response_json s v) /\ response_shown (response_json s v) s v.
Proof.
  intros Hs Hw Hn. split.
  - apply print_document.
    + constructor; [distinct|]. repeat (apply Forall_cons; split); simpl; try done. constructor; [distinct|]. repeat (apply Forall_cons; split); simpl; try done. by constructor.
    + simpl. lia.
  - split; [eexists; split; find_entry|find_entry].
Qed.

(** getAccountInfo. *)
Theorem C107_account_text : forall S E parse (J : iface S) st k cfg r, rpc_account E parse pk_parse J st k cfg = Done r -> textual cfg ->
  (forall pk c a, i_get J st pk c = Done (ROk (Some a)) -> fits E a) ->
  match account_result r with
  | None => r = RInternalError \/ r = RInvalidParams
  | Some t => exists pk c o v, pk < 2 ^ 256 /\ base58_text (le 32 pk) k /\ wants (cfg ≫= ac_commitment) c /\ i_get J st pk c = Done (ROk o) /\ document_of t v /\
      match o with
      | None => response_shown v 0 JNull
      | Some a => exists d x, plain E a d /\ response_shown v (d_slot a) x /\ account_shown (data_shown cfg d) x a d
      end
  end.
Proof.
  intros S E parse J st k cfg r H Ht Hf. destruct r as [s o|o| |]; [|by exfalso; clear -H; unfold rpc_account in H; destruct (pk_parse k); [|done]; destruct (i_get _ _ _ _) as [[[?|]|]|]; try done; simpl in H; destruct (convert _ _ _ _)|by left|by right].
  destruct (C60_account_info S E parse pk_parse J st k cfg s o H) as (pk & c & Hk & Hw & Ho). apply C05_key_text_exact in Hk as [Hlt Hk].
  destruct o as [u|].
  - destruct Ho as (a & Hg & -> & Hu). pose proof (Hf _ _ _ Hg) as Ha. destruct (ui_shown E parse a cfg u Hu Ht Ha) as (d & x & Hd & Hx & Hs & Hwx & Hn). unfold account_result. rewrite Hx. cbn [mbind option_bind].
    destruct (response_ok (d_slot a) x) as [H1 H2]; [by destruct Ha as (_ & _ & ? & _)|done|lia|]. exists pk, c, (Some a), (response_json (d_slot a) x). repeat (split; [done|]). by exists d, x.
  - destruct Ho as [-> Hg]. destruct (response_ok 0 JNull) as [H1 H2]; [done|constructor|simpl; lia|]. exists pk, c, None, (response_json 0 JNull). by repeat (split; [done|]).
Qed.
Print Assumptions C107_account_text.
(** getProgramAccounts. *)
Theorem C107_program_text : forall S E parse (J : iface S) st k cfg r, rpc_gpa E parse pk_parse J st k cfg = Done r -> textual (gc_account <$> cfg) ->
  (forall p fl c l a, i_gpa J st p fl c = Done (ROk l) -> a ∈ l -> fits E a) ->
  match program_result r with
  | None => r = RInternalError \/ r = RInvalidParams
  | Some t => exists p fl c l v vs, p < 2 ^ 256 /\ base58_text (le 32 p) k /\ expresses E (cfg ≫= gc_filters) fl /\ wants (cfg ≫= fun x => ac_commitment (gc_account x)) c /\
      i_gpa J st p fl c = Done (ROk l) /\ document_of t v /\
      if decide (cfg ≫= gc_with_context = Some true) then
        (exists slot, response_shown v slot (JArr vs) /\ (forall a, a ∈ l -> d_slot a <= slot) /\ (l <> [] -> exists a, a ∈ l /\ slot = d_slot a) /\ (l = [] -> slot = 0)) /\
        Forall2 (fun a x => exists d, plain E a d /\ keyed_shown (data_shown (gc_account <$> cfg) d) x a d) (filter (fun a => requested_min cfg <= d_slot a) l) vs
      else v = JArr vs /\ Forall2 (fun a x => exists d, plain E a d /\ keyed_shown (data_shown (gc_account <$> cfg) d) x a d) l vs
  end.
Proof.
  intros S E parse J st k cfg r H Ht Hf. destruct r as [s l|l| |]; [| |by left|by right].
  - assert (cfg ≫= gc_with_context = Some true) as Hctx.
    { clear -H. unfold rpc_gpa in H. destruct (pk_parse k) as [p|]; [|done]. destruct (match cfg ≫= gc_filters with None => Done None | Some l => _ end) as [fl|]; [|done]. simpl in H.
      destruct (i_gpa J st p fl _) as [[l0|]|]; [|done..]. simpl in H. destruct (keyed _ _ _ _ _) as [kk|]; [|done]. simpl in H. destruct (cfg ≫= gc_with_context) as [[]|]; by simpl in H. }
    destruct (C60_with_context S E parse pk_parse J st k cfg s l H) as (p & fl & c & l0 & Hk & He & Hw & Hg & Hsh & Hmax & Hin & H0). apply C05_key_text_exact in Hk as [Hlt Hk].
    destruct (keyed_list _ _ _ _ _ Hsh Ht) as (vs & Hm & Hs & Hwv & Hn). { apply Forall_forall. intros a [_ Ha]%elem_of_list_filter. by eapply Hf. }
    unfold program_result. rewrite Hm. cbn [mbind option_bind]. 
    destruct (response_ok s (JArr vs)) as [H1 H2]; [|by constructor|lia|].
    { destruct l0 as [|a0 l0]; [by rewrite H0|destruct Hin as (a & Ha & ->); [done|]; by destruct (Hf _ _ _ _ _ Hg Ha) as (_ & _ & ? & _)]. }
    exists p, fl, c, l0, (response_json s (JArr vs)), vs. repeat (split; [done|]). rewrite decide_True by done. split; [by exists s|done].
  - assert (cfg ≫= gc_with_context <> Some true) as Hctx.
    { clear -H. unfold rpc_gpa in H. destruct (pk_parse k) as [p|]; [|done]. destruct (match cfg ≫= gc_filters with None => Done None | Some l => _ end) as [fl|]; [|done]. simpl in H.
      destruct (i_gpa J st p fl _) as [[l0|]|]; [|done..]. simpl in H. destruct (keyed _ _ _ _ _) as [kk|]; [|done]. simpl in H. destruct (cfg ≫= gc_with_context) as [[]|]; by simpl in H. }
    destruct (C60_without_context S E parse pk_parse J st k cfg l H) as (p & fl & c & l0 & Hk & He & Hw & Hg & Hsh). apply C05_key_text_exact in Hk as [Hlt Hk].
    destruct (keyed_list _ _ _ _ _ Hsh Ht) as (vs & Hm & Hs & Hwv & Hn). { apply Forall_forall. intros a Ha. by eapply Hf. }
    unfold program_result. rewrite Hm. cbn [mbind option_bind].
    exists p, fl, c, l0, (JArr vs), vs. do 5 (split; [done|]). split; [apply print_document; [by constructor|lia]|]. by rewrite decide_False by done.
Qed.
Print Assumptions C107_program_text.

(** getSnapshot. *)
Theorem C107_snapshot_text : forall S (J : iface S) st k r, rpc_snapshot pk_parse J st k = Done r ->
  match snapshot_result r with
  | None => r = RInternalError \/ r = RInvalidParams
  | Some t => exists p b s, p < 2 ^ 256 /\ base58_text (le 32 p) k /\ i_snapshot J st p = Done (ROk b) /\ document_of t (JStr s) /\ base64_text b s
  end.
Proof.
  intros S J st k r H. unfold snapshot_result. destruct (snapshot_text r) as [s o|t| |] eqn:Hr.
  - destruct r as [? ?|?| |]; simpl in Hr; try done. unfold rpc_snapshot in H. destruct (pk_parse k); [|done]. destruct (i_snapshot J st p) as [[]|]; by simpl in H.
  - destruct (C103_snapshot_text S J st k r t H Hr) as (p & b & Hp & Hk & Hs & Hb). exists p, b, t. do 3 (split; [done|]). split; [apply print_document; [constructor|simpl; lia]|done].
  - destruct r; try done. by left.
  - destruct r; try done. by right.
Qed.
Print Assumptions C107_snapshot_text.

(** ** Examples: the accounts of [h3], as text *)
From Verif Require Import FilterProps ByCommitModel ByCommitSpec StoreProofs StoreSlot StoreViews StoreProps.
From Coq Require Import String.
#[local] Open Scope string_scope.
#[local] Open Scope list_scope.
Lemma h3_fits pk c a : version_at (final h3) pk c = Some a -> fits ext_sample a.
Proof.
  intros (i & b & Hi & Hb & Hg)%version_at_inv. destruct i as [|[|[|i]]]; vm_compute in Hb; try discriminate Hb; injection Hb as <-; destruct c; vm_compute in Hg; try discriminate Hg; injection Hg as <-;
    (split; [done|]); (split; [done|]); (split; [done|]); intros d Hd; vm_compute in Hd; injection Hd as <-; done.
Qed.
Lemma h3_ok : st_ok (final h3).
Proof. apply (reachable_ok ext_sample). exists h3. crunch. Qed.
Example C107_example_account : exists r,
  rpc_account ext_sample no_parse pk_parse (Jmem ext_sample admit_all) (final h3) (pk_text 6) None = Done r /\ textual None /\
  (forall pk c a, i_get (Jmem ext_sample admit_all) (final h3) pk c = Done (ROk (Some a)) -> fits ext_sample a) /\
  account_result r = Some (txt "{""context"":{""slot"":12},""value"":{""lamports"":1,""data"":[""Agg="",""base64""],""owner"":""UKrXU5bFrTzrqqpZXs8GVDbp4xPweiM65ADXNAy3ddR"",""executable"":false,""rentEpoch"":0,""space"":2}}").
Proof.
  eexists. split; [vm_compute; reflexivity|]. split; [done|]. split; [|vm_compute; reflexivity].
  intros pk c a H. cbn [i_get Jmem] in H. rewrite get_account_total in H by apply h3_ok. destruct (version_at (final h3) pk c) as [b|] eqn:Hv; [|done].
  apply (h3_fits pk c). rewrite Hv. simpl in H. destruct (0 <? d_lamports b)%N; congruence.
Qed.
Example C107_example_null : exists r, rpc_account ext_sample no_parse pk_parse (Jmem ext_sample admit_all) (final h3) (pk_text 99) None = Done r /\
  account_result r = Some (txt "{""context"":{""slot"":0},""value"":null}").
Proof. eexists. split; [vm_compute; reflexivity|vm_compute; reflexivity]. Qed.
Lemma h3_gpa_fits p fl c l a : get_program_accounts ext_sample admit_all (final h3) p fl c = Done (ROk l) -> a ∈ l -> fits ext_sample a.
Proof.
  intros Hl Ha. apply gpa_inv in Hl as (_ & Hl & _). apply Hl in Ha as (i & bb & l' & Hi & Hbb & Hl' & Hin).
  destruct (gpa_entry_sound _ _ _ _ _ _ _ Hl' Hin) as (b & _ & Hg & (_ & H1 & _ & _ & H2 & H3 & _ & H4) & _).
  assert (version_at (final h3) (d_pubkey b) c = Some b) as Hv. { rewrite (version_at_entry _ _ i bb); [done| |done]. by eapply entry_index; [apply h3_ok|..]. }
  apply h3_fits in Hv. unfold fits, plain in *. by rewrite H1, H2, H3, H4.
Qed.
Example C107_example_program : exists r, let cfg := cfg_of None LFinalized (Some 14) (Some true) in
  rpc_gpa ext_sample no_parse pk_parse (Jmem ext_sample admit_all) (final h3) (pk_text 7) cfg = Done r /\ textual (gc_account <$> cfg) /\
  (forall p fl c l a, i_gpa (Jmem ext_sample admit_all) (final h3) p fl c = Done (ROk l) -> a ∈ l -> fits ext_sample a) /\
  program_result r = Some (txt "{""context"":{""slot"":14},""value"":[{""pubkey"":""YEGAxog9gxiGXxo538aAQxq55XAebpFfwU72ZUxmSHm"",""account"":{""lamports"":1,""data"":[""Aw=="",""base64""],""owner"":""UKrXU5bFrTzrqqpZXs8GVDbp4xPweiM65ADXNAy3ddR"",""executable"":false,""rentEpoch"":0,""space"":1}}]}").
Proof.
  eexists. intros cfg. split; [vm_compute; reflexivity|]. split; [by split|]. split; [|vm_compute; reflexivity].
  intros p fl c l a. apply h3_gpa_fits.
Qed.
Example C107_example_snapshot : exists st r, rpc_snapshot pk_parse (child_iface ext_sample Lz4Model.lz4_sample admit_all map_to_list) (CMem st) (pk_text 7) = Done r /\ exists t, snapshot_result r = Some t.
Proof. destruct C103_example_text as (st & r & t & H & Ht). exists st, r. split; [exact H|]. unfold snapshot_result. rewrite Ht. eauto. Qed.
