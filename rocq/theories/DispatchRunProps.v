(** C106: every storage behind the dispatcher is in the state it would have had it been given its share of the calls alone. *)
From Verif Require Import Base DataModel FilterModel FilterProps ByCommitModel StoreModel StoreSpec TokenModel TokenPendModel TokenUtilsModel SplModel TokenStoreModel TokenStoreProps
  TokenUtilsProps DispatchModel DispatchSpec DispatchProps TokenStoreSpec TokenLedgerSpec TokenLedgerProps.

(** ** Vocabulary *)
(** The calls that change a storage. *)
Inductive dcall := DUpdate (a : acct) (c : commitment) | DInit (a : acct) | DSlot (si : slot_info) (c : commitment) | DLoad (p : pubkey) (b : bytes).
(** Calls made to the dispatcher one after the other, each with the answer of the update ([false] for the others), none of which panics. *)
Inductive did {S} (I : nat -> iface S) (D : disp) : heap S -> list (dcall * bool) -> heap S -> Prop :=
| did_nothing h : did I D h [] h
| did_update h a c h1 b l h' : dp_update I D h a c = Done (h1, b) -> did I D h1 l h' -> did I D h ((DUpdate a c, b) :: l) h'
| did_init h a h1 l h' : dp_init I D h a = Done h1 -> did I D h1 l h' -> did I D h ((DInit a, false) :: l) h'
| did_slot h si c h1 r l h' : dp_slot I D h si c = Done (h1, r) -> did I D h1 l h' -> did I D h ((DSlot si c, false) :: l) h'
| did_load h p b h1 r l h' : dp_load I D h p b = Done (h1, r) -> did I D h1 l h' -> did I D h ((DLoad p b, false) :: l) h'.
(** The same calls made to a storage itself. *)
Inductive alone {S} (J : iface S) : S -> list dcall -> S -> Prop :=
| alone_nothing s : alone J s [] s
| alone_update s a c s1 b l s' : i_update J s a c = Done (s1, b) -> alone J s1 l s' -> alone J s (DUpdate a c :: l) s'
| alone_init s a s1 l s' : i_init J s a = Done s1 -> alone J s1 l s' -> alone J s (DInit a :: l) s'
| alone_slot s si c s1 r l s' : i_slot J s si c = Done (s1, r) -> alone J s1 l s' -> alone J s (DSlot si c :: l) s'
| alone_load s p b s1 r l s' : i_load J s p b = Done (s1, r) -> alone J s1 l s' -> alone J s (DLoad p b :: l) s'.
(** Initialisations go by the owner, loads by the program; updates and notifications are for everyone. *)
Definition concerns (D : disp) (i : nat) (o : dcall) : Prop :=
  match o with DUpdate _ _ | DSlot _ _ => True | DInit a => responsible D (d_owner a) i | DLoad p _ => responsible D p i end.
(** The share of object [i]: all that concerns it, in the same order, except that updates which were accepted may be missing
    from the share of every object but the first. *)
Inductive share (D : disp) (i : nat) : list (dcall * bool) -> list dcall -> Prop :=
| share_nothing : share D i [] []
| share_taken o b l k : concerns D i o -> share D i l k -> share D i ((o, b) :: l) (o :: k)
| share_accepted a c l k : head (registrations D) <> Some i -> share D i l k -> share D i ((DUpdate a c, true) :: l) k
| share_other o b l k : ~ concerns D i o -> share D i l k -> share D i ((o, b) :: l) k.

(** ** Proofs *)
Lemma refused_each S (I : nat -> iface S) a c h l h' : refused I a c h l h' -> NoDup l ->
  (forall i, i ∈ l -> i_update (I i) (h i) a c = Done (h' i, false)) /\ forall j, j ∉ l -> h' j = h j.
Proof.
  induction 1 as [h|h i s h1 l h' Hi [Hs Ho] Hn IH]; intros Hnd; [split; [intros i Hi; by apply elem_of_nil in Hi|done]|]. apply NoDup_cons in Hnd as [Hil Hnd].
  destruct (IH Hnd) as [Hf Hj]. split.
  - intros k [->|Hk]%elem_of_cons; [by rewrite (Hj i Hil), Hs|]. rewrite <- (Ho k) by (intros ->; done). by apply Hf.
  - intros j Hj'. apply not_elem_of_cons in Hj' as [Hne Hj']. rewrite Hj by done. by apply Ho.
Qed.
(** What one call does to one object. *)
Lemma update_share S (I : nat -> iface S) D h a c h' b i : unshared D -> dp_update I D h a c = Done (h', b) -> i ∈ registrations D ->
  (exists b', i_update (I i) (h i) a c = Done (h' i, b')) \/ (b = true /\ head (registrations D) <> Some i /\ h' i = h i).
Proof.
  intros Hnd H Hi. apply C53_update_offered_in_turn in H as (tried & j & rest & h1 & s & Hreg & Href & Hu & [Hs Ho] & Hb).
  unfold unshared in Hnd. rewrite Hreg in Hnd, Hi. apply NoDup_app in Hnd as (Ht & Htr & Hr). apply NoDup_cons in Hr as [Hj Hr].
  destruct (refused_each _ _ _ _ _ _ _ Href Ht) as [Hf Hsame]. apply elem_of_app in Hi as [Hi|[->|Hi]%elem_of_cons].
  - left. exists false. rewrite Ho; [by apply Hf|]. intros ->. apply (Htr j Hi). left.
  - left. exists b. rewrite Hs, <- Hu. f_equal. symmetry. apply Hsame. intros Hjt. apply (Htr j Hjt). left.
  - right. split; [destruct b; [done|]; rewrite Hb in Hi by done; by apply elem_of_nil in Hi|]. split.
    + rewrite Hreg. destruct tried as [|t tried]; simpl; intros [= ->]; [done|]. apply (Htr i); [left|by right].
    + rewrite Ho by (intros ->; done). apply Hsame. intros Hit. apply (Htr i Hit). by right.
Qed.
(** C106: the state of every object registered once is that of the same object given its share of the calls alone; objects that are not
    registered are not touched. *)
Theorem C106_shares : forall S (I : nat -> iface S) (D : disp) h l h', one_child_each D -> unshared D -> did I D h l h' ->
  (forall i, i ∈ registrations D -> exists k, share D i l k /\ alone (I i) (h i) k (h' i)) /\
  (forall j, j ∉ registrations D -> h' j = h j).
Proof.
  intros S I D h l h' H1 Hnd. assert (forall p, dp_child D p ∈ registrations D) as Hreg.
  { intros p. assert (responsible D p (dp_child D p)) as [Hin|[_ ->]] by (by apply child_responsible); apply elem_of_app; [left|right; left].
    apply elem_of_list_fmap. by exists (p, dp_child D p). }
  induction 1 as [h|h a c h1 b l h' Hc Hl [IH IHo]|h a h1 l h' Hc Hl [IH IHo]|h si c h1 r l h' Hc Hl [IH IHo]|h p b h1 r l h' Hc Hl [IH IHo]].
  - split; [|done]. intros i _. exists []. split; constructor.
  - split.
    + intros i Hi. destruct (IH i Hi) as (k & Hk & Ha). destruct (update_share _ _ _ _ _ _ _ _ _ Hnd Hc Hi) as [[b' Hu]|(-> & Hh & He)].
      * exists (DUpdate a c :: k). split; [by apply share_taken|by econstructor].
      * exists k. split; [by apply share_accepted|by rewrite <- He].
    + intros j Hj. rewrite IHo by done. apply C53_update_offered_in_turn in Hc as (tried & i & rest & h2 & s & Hr & Href & _ & [_ Ho] & _).
      rewrite Hr in Hj. apply not_elem_of_app in Hj as [Hj1 Hj2]. apply not_elem_of_cons in Hj2 as [Hj2 _]. rewrite Ho by done.
      eapply refused_each; [done| |done]. unfold unshared in Hnd. rewrite Hr in Hnd. by apply NoDup_app in Hnd as [? _].
  - unfold dp_init in Hc. destruct (i_init _ _ a) as [s|] eqn:Hs; cbn [mbind res_bind] in Hc; [|done]. injection Hc as <-.
    destruct (hset_changed h (dp_child D (d_owner a)) s) as [He Ho]. split.
    + intros i Hi. destruct (IH i Hi) as (k & Hk & Ha). destruct (decide (i = dp_child D (d_owner a))) as [->|Hne].
      * exists (DInit a :: k). split; [by apply share_taken; [apply child_responsible|]|]. econstructor; [done|]. by rewrite He in Ha.
      * exists k. split; [apply share_other; [|done]; simpl; by rewrite child_responsible|]. by rewrite Ho in Ha.
    + intros j Hj. rewrite IHo by done. apply Ho. intros ->. by apply Hj.
  - destruct (C53_each_notified_once _ _ _ _ _ _ _ _ Hnd Hc) as [(ts & Hf & _) Ho]. split.
    + intros i Hi. destruct (IH i Hi) as (k & Hk & Ha). exists (DSlot si c :: k). split; [by apply share_taken|].
      apply elem_of_list_lookup in Hi as [n Hn]. destruct (Forall2_lookup_l _ _ _ _ _ Hf Hn) as (t & _ & Ht). by econstructor.
    + intros j Hj. rewrite IHo by done. by apply Ho.
  - unfold dp_load in Hc. destruct (i_load _ _ p b) as [[s r']|] eqn:Hs; cbn [mbind res_bind] in Hc; [|done]. injection Hc as <- <-.
    destruct (hset_changed h (dp_child D p) s) as [He Ho]. split.
    + intros i Hi. destruct (IH i Hi) as (k & Hk & Ha). destruct (decide (i = dp_child D p)) as [->|Hne].
      * exists (DLoad p b :: k). split; [by apply share_taken; [apply child_responsible|]|]. econstructor; [done|]. by rewrite He in Ha.
      * exists k. split; [apply share_other; [|done]; simpl; by rewrite child_responsible|]. by rewrite Ho in Ha.
    + intros j Hj. rewrite IHo by done. apply Ho. intros ->. by apply Hj.
Qed.
Print Assumptions C106_shares.

(** ** The storages of the repository *)
(** A token storage, given calls, runs them; an in-memory store likewise. *)
Definition token_call (ord : drain) (o : dcall) : tsop :=
  match o with DUpdate a c => TUpdate a c | DInit a => TInit a | DSlot si c => TSlot ord si c | DLoad p b => TLoad p b end.
Definition store_call (F : filt) (o : dcall) : filt * op :=
  (F, match o with DUpdate a c => OUpdate a c | DInit a => OInit a | DSlot si c => OSlot si c | DLoad p b => OLoad p b end).
Theorem C106_token_alone : forall E X F ord ts k s, alone (child_iface E X F ord) (CTok ts) k s -> exists ts', s = CTok ts' /\ ts_run E X ts (token_call ord <$> k) = Done ts'.
Proof.
  intros E X F ord ts k s H. remember (CTok ts) as s0 eqn:Hs0. revert ts Hs0. induction H as [s|s a c s1 b l s' Hc Hl IH|s a s1 l s' Hc Hl IH|s si c s1 r l s' Hc Hl IH|s p b s1 r l s' Hc Hl IH]; intros ts ->.
  - by exists ts.
  - cbn [child_iface i_update] in Hc. rewrite fmap_cons. cbn [token_call ts_run ts_step]. destruct (ts_update E ts a c) as [[ts1 b']|]; cbn [mbind res_bind] in *; [|done]. injection Hc as <- <-. by apply IH.
  - cbn [child_iface i_init] in Hc. rewrite fmap_cons. cbn [token_call ts_run ts_step]. destruct (ts_init E ts a) as [ts1|]; cbn [mbind res_bind] in *; [|done]. injection Hc as <-. by apply IH.
  - cbn [child_iface i_slot] in Hc. rewrite fmap_cons. cbn [token_call ts_run ts_step]. destruct (ts_slot ord ts si c) as [[ts1 b']|]; cbn [mbind res_bind] in *; [|done]. injection Hc as <- <-. by apply IH.
  - cbn [child_iface i_load] in Hc. rewrite fmap_cons. cbn [token_call ts_run ts_step]. destruct (ts_load X ts p b) as [[ts1 b']|]; cbn [mbind res_bind] in *; [|done]. injection Hc as <- <-. by apply IH.
Qed.
Print Assumptions C106_token_alone.
Theorem C106_store_alone : forall E X F ord st k s, alone (child_iface E X F ord) (CMem st) k s -> exists st', s = CMem st' /\ run E st (store_call F <$> k) = Done st'.
Proof.
  intros E X F ord st k s H. remember (CMem st) as s0 eqn:Hs0. revert st Hs0. induction H as [s|s a c s1 b l s' Hc Hl IH|s a s1 l s' Hc Hl IH|s si c s1 r l s' Hc Hl IH|s p b s1 r l s' Hc Hl IH]; intros st ->.
  - by exists st.
  - cbn [child_iface i_update] in Hc. rewrite fmap_cons. cbn [store_call run step]. destruct (update_account F st a c) as [[st1 b']|]; cbn [mbind res_bind] in *; [|done]. injection Hc as <- <-. by apply IH.
  - cbn [child_iface i_init] in Hc. rewrite fmap_cons. cbn [store_call run step]. destruct (init_account F st a) as [st1|]; cbn [mbind res_bind] in *; [|done]. injection Hc as <-. by apply IH.
  - cbn [child_iface i_slot] in Hc. rewrite fmap_cons. cbn [store_call run step]. destruct (process_slot F st si c) as [[st1 b']|]; cbn [mbind res_bind] in *; [|done]. injection Hc as <- <-. by apply IH.
  - cbn [child_iface i_load] in Hc. rewrite fmap_cons. cbn [store_call run step]. destruct (load_from_snapshot F st p b) as [[st1 b']|]; cbn [mbind res_bind] in *; [|done]. injection Hc as <- <-. by apply IH.
Qed.
Print Assumptions C106_store_alone.
(** The calls for the storage registered first, for program [p]: all updates and notifications, the initialisations of accounts
    of [p], the loads of [p]. *)
Definition for_program (p : pubkey) (o : dcall) : Prop := match o with DUpdate _ _ | DSlot _ _ => True | DInit a => d_owner a = p | DLoad q _ => q = p end.
#[global] Instance for_program_dec p o : Decision (for_program p o).
Proof. destruct o; simpl; apply _. Defined.
Lemma concerns_first D p i rest o : one_child_each D -> unshared D -> dp_map D = (p, i) :: rest -> concerns D i o <-> for_program p o.
Proof.
  intros H1 Hnd Hm. assert (forall q, responsible D q i <-> q = p) as Hr; [|destruct o; simpl; try done; apply Hr]. intros q. unfold responsible. rewrite Hm.
  unfold unshared, registrations in Hnd. rewrite Hm in Hnd. simpl in Hnd. apply NoDup_cons in Hnd as [Hi _]. rewrite elem_of_app, elem_of_list_singleton in Hi. split.
  - intros [[[= ->]|H]%elem_of_cons|[_ ->]]; [done| |destruct Hi; by right]. destruct Hi. left. apply elem_of_list_fmap. by exists (q, i).
  - intros ->. left. left.
Qed.
Lemma share_first D p i rest l k : one_child_each D -> unshared D -> dp_map D = (p, i) :: rest -> share D i l k -> k = filter (for_program p) (fst <$> l).
Proof.
  intros H1 Hnd Hm. induction 1 as [|o b l k Hc Hs IH|a c l k Hh Hs IH|o b l k Hc Hs IH]; [done|..]; rewrite fmap_cons; cbn [fst].
  - rewrite filter_cons_True by (by eapply concerns_first). by rewrite IH.
  - destruct Hh. unfold registrations. by rewrite Hm.
  - rewrite filter_cons_False; [done|]. by rewrite <- concerns_first.
Qed.
(** C106: a token storage registered first has run exactly the calls for its program, and reads and queries of its program through the
    dispatcher are answered from that state. *)
Theorem C106_token_storage_follows : forall E X ord (F : nat -> filt) (D : disp) (h : heap child) l h' p i rest ts, one_child_each D -> unshared D ->
  dp_map D = (p, i) :: rest -> h i = CTok ts -> did (fun j => child_iface E X (F j) ord) D h l h' ->
  exists ts', ts_run E X ts (token_call ord <$> filter (for_program p) (fst <$> l)) = Done ts' /\
    (forall pk c, dp_get (fun j => child_iface E X (F j) ord) D h' pk c = ts_get ts' pk c) /\
    (forall fl c, dp_gpa (fun j => child_iface E X (F j) ord) D h' p fl c = ts_gpa E ts' p fl c).
Proof.
  intros E X ord F D h l h' p i rest ts H1 Hnd Hm Hts Hdid. assert (i ∈ registrations D) as Hi by (unfold registrations; rewrite Hm; left).
  destruct (C106_shares _ _ _ _ _ _ H1 Hnd Hdid) as [Hsh _]. destruct (Hsh i Hi) as (k & Hk & Ha). rewrite Hts in Ha. apply C106_token_alone in Ha as (ts' & Hs & Hr).
  rewrite (share_first _ _ _ _ _ _ H1 Hnd Hm Hk) in Hr. exists ts'. split; [done|]. split.
  - intros pk c. rewrite (C52_only_first_child_read E X ord F D h' p i rest pk c Hm), Hs. done.
  - intros fl c. unfold dp_gpa. assert (dp_child D p = i) as ->; [|by rewrite Hs]. unfold dp_child. rewrite Hm. simpl. by rewrite N.eqb_refl.
Qed.
Print Assumptions C106_token_storage_follows.
(** C106: so that with an orderly stream reads through the dispatcher show the ledger, at every commitment. *)
Theorem C106_reads_show_ledger : forall E X ord (F : nat -> filt) (D : disp) (h : heap child) calls h' p i rest L pk c, one_child_each D -> unshared D ->
  dp_map D = (p, i) :: rest -> h i = CTok ts_empty -> did (fun j => child_iface E X (F j) ord) D h calls h' ->
  let l := token_call ord <$> filter (for_program p) (fst <$> calls) in
  t_orderly E l L -> ops_ok l -> (forall ts, ts_run E X ts_empty l = Done ts -> ts_ctr ts <= 2 ^ 32) -> token_account_key E l pk -> mints_known E l L pk ->
  exists o x, in_tledger L pk c o /\ dp_get (fun j => child_iface E X (F j) ord) D h' pk c = Done (ROk x) /\ answers E L o x.
Proof.
  intros E X ord F D h calls h' p i rest L pk c H1 Hnd Hm Hts Hdid l Ho Hok Hc Hk Hmk.
  destruct (C106_token_storage_follows _ _ _ _ _ _ _ _ _ _ _ _ H1 Hnd Hm Hts Hdid) as (ts' & Hr & Hg & _).
  destruct (C92_token_reads_show_ledger E X l L ts' pk c Ho Hok Hr (Hc _ Hr) Hk Hmk) as (o & x & Hx & Hgx & Ha). exists o, x. by rewrite Hg.
Qed.
Print Assumptions C106_reads_show_ledger.

(** ** Examples *)
Definition call_of (o : tsop) : dcall := match o with TUpdate a c => DUpdate a c | TInit a => DInit a | TSlot _ si c => DSlot si c | TLoad p b => DLoad p b end.
Fixpoint made {S} (I : nat -> iface S) (D : disp) (h : heap S) (l : list dcall) : option (heap S * list (dcall * bool)) :=
  match l with
  | [] => Some (h, [])
  | o :: l =>
      let step := match o with
        | DUpdate a c => dp_update I D h a c
        | DInit a => h ← dp_init I D h a; Done (h, false)
        | DSlot si c => '(h, _) ← dp_slot I D h si c; Done (h, false)
        | DLoad p b => '(h, _) ← dp_load I D h p b; Done (h, false) end in
      match step with Done (h, b) => match made I D h l with Some (h', t) => Some (h', (o, b) :: t) | None => None end | Panic => None end
  end.
Lemma made_did S (I : nat -> iface S) D l : forall h h' t, made I D h l = Some (h', t) -> did I D h t h' /\ fst <$> t = l.
Proof.
  induction l as [|o l IH]; simpl; intros h h' t H; [injection H as <- <-; split; [constructor|done]|]. destruct o as [a c|a|si c|p b].
  - destruct (dp_update I D h a c) as [[h1 b]|] eqn:Hs; [|done]. destruct (made I D h1 l) as [[h2 t']|] eqn:Hm; [|done]. injection H as <- <-.
    destruct (IH _ _ _ Hm) as [Hd <-]. split; [by econstructor|done].
  - destruct (dp_init I D h a) as [h1|] eqn:Hs; cbn [mbind res_bind] in H; [|done]. destruct (made I D h1 l) as [[h2 t']|] eqn:Hm; [|done]. injection H as <- <-.
    destruct (IH _ _ _ Hm) as [Hd <-]. split; [by econstructor|done].
  - destruct (dp_slot I D h si c) as [[h1 r]|] eqn:Hs; cbn [mbind res_bind] in H; [|done]. destruct (made I D h1 l) as [[h2 t']|] eqn:Hm; [|done]. injection H as <- <-.
    destruct (IH _ _ _ Hm) as [Hd <-]. split; [by econstructor|done].
  - destruct (dp_load I D h p b) as [[h1 r]|] eqn:Hs; cbn [mbind res_bind] in H; [|done]. destruct (made I D h1 l) as [[h2 t']|] eqn:Hm; [|done]. injection H as <- <-.
    destruct (IH _ _ _ Hm) as [Hd <-]. split; [by econstructor|done].
Qed.
(** The stream of the token ledger example, with two accounts of another program initialised before and in between. *)
Definition mixed : list dcall := DInit (sys 90 7 5 1) :: (call_of <$> take 2 tl_hist2) ++ DInit (sys 91 7 6 2) :: (call_of <$> drop 2 tl_hist2).
Example C106_example : exists h' t, did Ireal d_tok h_new t h' /\ fst <$> t = mixed /\ one_child_each d_tok /\ unshared d_tok /\ dp_map d_tok = (spl_token_id, 0%nat) :: [] /\ h_new 0%nat = CTok ts_empty /\
  token_call ord0 <$> filter (for_program spl_token_id) (fst <$> t) = tl_hist2 /\ t_orderly E0 tl_hist2 (tledger_at tl_hist2) /\ ops_ok tl_hist2 /\
  (forall ts, ts_run E0 X0 ts_empty tl_hist2 = Done ts -> ts_ctr ts <= 2 ^ 32) /\ token_account_key E0 tl_hist2 77 /\ mints_known E0 tl_hist2 (tledger_at tl_hist2) 77 /\
  amount_of (dp_get Ireal d_tok h' 77 Finalized) = Some 5 /\ dp_get Ireal d_tok h' 77 Processed = Done (ROk None) /\
  match h' 1%nat with CMem st => length (map_to_list (st_index st)) | CTok _ => 0%nat end = 3%nat.
Proof.
  destruct C92_token_reads_show_ledger_example as (Ho & Hok & Hr & Hc & Hk & Hm & _).
  destruct (made Ireal d_tok h_new mixed) as [[h' t]|] eqn:Hmade; [|exfalso; assert (match made Ireal d_tok h_new mixed with Some _ => true | None => false end = true) as H by (by vm_compute); by rewrite Hmade in H].
  destruct (made_did _ _ _ _ _ _ _ Hmade) as [Hd Ht]. exists h', t. split; [done|]. split; [done|].
  split; [apply (bool_decide_unpack _); by vm_compute|]. split; [apply (bool_decide_unpack _); by vm_compute|]. split; [done|]. split; [done|].
  split; [rewrite Ht; reflexivity|]. split; [exact Ho|]. split; [exact Hok|]. split; [intros ts H; rewrite Hr in H; assert (final tl_hist2 = ts) as <- by congruence; exact Hc|]. split; [exact Hk|]. split; [exact Hm|].
  assert (forall P : heap child -> Prop, (match made Ireal d_tok h_new mixed with Some (h, _) => P h | None => False end) -> P h') as HP by (intros P H; rewrite Hmade in H; exact H).
  split; [apply HP; by vm_compute|]. split; [apply HP; by vm_compute|]. apply HP. by vm_compute.
Qed.
