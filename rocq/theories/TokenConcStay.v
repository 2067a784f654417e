(** Concurrent calls of the token store: what has been served stays served. *)
From Verif Require Import Base SMap DataModel BincodeModel BincodeProofs FilterModel FilterProofs StoreModel TokenModel TokenProofs TokenProps SplModel SplProofs TokenUtilsModel
  TokenUtilsProofs TokenPendModel TokenPendSpec TokenPendProofs TokenPendProps TokenUtilsProps TokenStoreModel TokenStoreSpec TokenStoreProofs TokenStoreViews TokenStoreProps TokenStoreOrder
  TokenStoreQuery TokenStoreQueryProps TokenStoreSafe TokenConcModel TokenConcSpec TokenConcProofs TokenConcIndex TokenConcServe.
#[local] Arguments le : simpl never.
#[local] Arguments unle : simpl never.
#[local] Opaque to_bytes from_bytes peek_pubkey conf_walk add_finalized.

Section stay.
Context (E : ext) (X : lz4x) (L : list tsop) (HW : calm_world E L) (pk : pubkey) (HN : never_closed L pk).
Lemma not_closed x : orig E L x -> tpa_pubkey x = pk -> forall q, x <> TPDeleted q.
Proof. intros (o & Ho & Hcf) Hx q ->. simpl in Hx. subst q. apply comes_closes in Hcf. by apply (HN o). Qed.
(** A row for [pk]. *)
Definition row_at (ts : tstore) (i : nat) : Prop := exists t, live ts i t /\ ta_pubkey t = pk.
(** A step: the indices only grow, and rows for [pk] stay. *)
Record grows (ts ts' : tstore) : Prop := Grows {
  gr_row : forall i, row_at ts i -> row_at ts' i;
  gr_own : forall k i, i ∈ default [] (ts_by_owner ts !! k) -> i ∈ default [] (ts_by_owner ts' !! k);
  gr_mint : forall k i, i ∈ default [] (ts_by_mint ts !! k) -> i ∈ default [] (ts_by_mint ts' !! k);
  gr_ix : forall q i, ts_mint_ix ts !! q = Some i -> ts_mint_ix ts' !! q = Some i;
  gr_multi : forall q, is_Some (ts_multi ts !! q) -> is_Some (ts_multi ts' !! q);
}.
Lemma grows_refl ts : grows ts ts.
Proof. by constructor. Qed.
Lemma grows_trans ts1 ts2 ts3 : grows ts1 ts2 -> grows ts2 ts3 -> grows ts1 ts3.
Proof. intros [] []. constructor; eauto. Qed.
Lemma multi_piece_stays ts t ts' t' : tho E L ts t -> tpiece E X ts t = Some (Done (ts', t')) -> forall q, is_Some (ts_multi ts !! q) -> is_Some (ts_multi ts' !! q).
Proof.
  #[local] Transparent add_finalized.
  intros Ht Hp q Hq. destruct t; simpl in Ht; try done; simpl in Hp; unfold mbind, res_bind, add_finalized, set_pend, set_ix, set_mints, set_multi, set_conf, set_fin, set_table, shown in Hp;
    repeat (case_match; simplify_eq/=; try done); try by simplify_eq/=.
  destruct (decide (pk0 = q)) as [->|Hne]; [rewrite lookup_insert; eauto|by rewrite lookup_insert_ne].
  #[local] Opaque add_finalized.
Qed.
Lemma piece_grows ts t ts' t' : ginv E L ts -> tho E L ts t -> tpiece E X ts t = Some (Done (ts', t')) -> grows ts ts'.
Proof.
  intros Hg Ht Hp. pose proof (gi_t _ _ _ Hg) as T. pose proof (multi_piece_stays _ _ _ _ Ht Hp) as Hmu.
  assert (forall q i, ts_mint_ix ts !! q = Some i -> ts_mint_ix ts' !! q = Some i) as Hix.
  { destruct (piece_step E X L HW _ _ _ Hg Ht Hp) as (ts1 & t1 & [= <- <-] & _ & _ & G). apply (gu_ix _ _ G). }
  destruct (moves t) eqn:Hm.
  - destruct t; simpl in Hm; try done; simpl in Hp; simpl in Ht.
    + destruct l as [|[tk| | |] l]; try done. destruct (tb_save _ tk) as [[[tb i] b]|] eqn:Hs; [|done]. cbn [mbind res_bind] in Hp. injection Hp as <- <-.
      apply Forall_cons in Ht as [Ha _]. pose proof (addable_good E L HW _ _ Hg Ha) as Hgd.
      destruct (tb_save_spec _ tk (ti_table _ T) Hgd) as (tb1 & i1 & b1 & Hs1 & Hok & Hat & Hoth & Hold & Hnew & Hsame & Hlen). rewrite Hs in Hs1. injection Hs1 as <- <- <-.
      assert (ta_deleted tk = false) as Hdk by (by destruct Ha as ((_ & _ & ?) & _)).
      constructor; simpl; try done. intros j (t & [Hst Hd] & Hk). destruct (decide (j = i)) as [->|Hne].
      * exists tk. split; [split; [apply Hat|done]|]. destruct b; [destruct Hnew as [-> _]; [done|]; pose proof (stored_lt _ _ _ Hst); lia|].
        destruct Hold as (t0 & Ht0 & Hk0 & _); [done|]. rewrite (stored_fun _ _ _ _ Hst Ht0) in Hk. congruence.
      * exists t. split; [|done]. split; [|done]. destruct Hst as [? Hst]. split; [done|]. simpl. by rewrite Hsame.
    + injection Hp as <- <-. constructor; simpl; try done. intros k j Hj. by apply elem_push.
    + injection Hp as <- <-. constructor; simpl; try done. intros k j Hj. by apply elem_push.
    + destruct (tb_index (ts_table ts) !! prefix4 _) as [ixs|]; injection Hp as <- <-; by constructor.
    + destruct (tb_del_row _ _ _) as [tb|] eqn:Hs; [|done]. cbn [mbind res_bind] in Hp. injection Hp as <- <-. destruct Ht as ((o' & Ho' & Hcf) & _ & Hlo). constructor; simpl; try done.
      intros j (t & [Hst Hd] & Hk). exists t. split; [|done]. split; [|done]. simpl. unfold tb_del_row in Hs. destruct (find_pk_spec (ts_table ts) pk0 ixs) as (o & Ho & Hspec).
      { intros i Hin. eapply Forall_forall in Hlo as [Hl _]; [|done]. apply lookup_lt_is_Some in Hl as [v Hv]. destruct (to_all _ (ti_table _ T) _ _ Hv) as (t0 & Hgd & ->). exists t0. by split. }
      rewrite Ho in Hs. cbn [mbind res_bind] in Hs. injection Hs as <-. destruct o as [i|]; [|done]. destruct Hspec as (Hin & t0 & Hst0 & Hp0).
      assert (j <> i) as Hne. { intros ->. rewrite (stored_fun _ _ _ _ Hst0 Hst) in Hp0. apply comes_closes in Hcf. apply (HN o'); [done|]. by rewrite <- Hk, Hp0. }
      destruct Hst as [? Hst]. split; [done|]. simpl. by rewrite list_lookup_insert_ne.
  - destruct (plain_piece E X L _ _ _ _ Ht Hm Hp) as (H1 & H2 & H3 & _). constructor; unfold row_at, live; rewrite ?H1, ?H2, ?H3; done.
Qed.

(** ** Queries *)
Inductive want := WOwner (o : pubkey) | WMint (m : pubkey).
Definition asks (w : want) (p : pubkey) (fl : option (list cond)) : Prop :=
  exists l, fl = Some l /\ owner_mint_filter p l = match w with WOwner o => (Some o, None) | WMint m => (None, Some m) end.
Context (w : want) (HO : match w with WOwner _ => keeps_owner E L | WMint _ => True end).
Definition listed (ts : tstore) : Prop :=
  exists i t, live ts i t /\ ta_pubkey t = pk /\
    match w with
    | WOwner o => ta_owner t = o /\ i ∈ default [] (ts_by_owner ts !! prefix4 o)
    | WMint m => exists j, ts_mint_ix ts !! m = Some j /\ i ∈ default [] (ts_by_mint ts !! j)
    end.
Lemma row_keeps ts ts' i t : ginv E L ts -> ginv E L ts' -> grows ts ts' -> live ts i t -> ta_pubkey t = pk ->
  exists t', live ts' i t' /\ ta_pubkey t' = pk /\ match w with WOwner _ => ta_owner t' = ta_owner t | WMint _ => True end.
Proof.
  intros Hg Hg' G Hl Hk. destruct (gr_row _ _ G i) as (t' & Hl' & Hk'); [by exists t|]. exists t'. split; [done|]. split; [done|]. destruct w; [|done].
  destruct (row_token E L ts t) as (o1 & r1 & Ho1 & Hop1 & -> & _); [apply (gi_rows _ _ _ Hg i); apply Hl|].
  destruct (row_token E L ts' t') as (o2 & r2 & Ho2 & Hop2 & -> & _); [apply (gi_rows _ _ _ Hg' i); apply Hl'|].
  rewrite Hk in Hop1. rewrite Hk' in Hop2. by apply (HO o2 o1 pk).
Qed.
Lemma listed_stays ts ts' : ginv E L ts -> ginv E L ts' -> grows ts ts' -> listed ts -> listed ts'.
Proof.
  intros Hg Hg' G (i & t & Hl & Hk & Hx). destruct (row_keeps _ _ _ _ Hg Hg' G Hl Hk) as (t' & Hl' & Hk' & Ho). exists i, t'. split; [done|]. split; [done|]. destruct w as [o|m].
  - destruct Hx as [<- Hx]. split; [done|]. by apply (gr_own _ _ G).
  - destruct Hx as (j & Hj & Hx). exists j. split; [by apply (gr_ix _ _ G)|by apply (gr_mint _ _ G)].
Qed.
Definition apks (l : list acct) : list pubkey := d_pubkey <$> l.
(** A query that will list [pk]. *)
Definition will (ts : tstore) (x : tthr) : Prop :=
  match x with
  | XGpa p fl _ => asks w p fl
  | XGpaOwner o m _ _ => w = WOwner o /\ m = None
  | XGpaRows o mi ixs _ _ => w = WOwner o /\ mi = None /\ exists i t, i ∈ default [] ixs /\ live ts i t /\ ta_pubkey t = pk /\ ta_owner t = o
  | XGpaMint m _ _ => w = WMint m
  | XRows q out _ _ => (exists t, t ∈ q /\ ta_deleted t = false /\ ta_pubkey t = pk) \/ pk ∈ apks out
  | XOver l _ | XOverPend l _ _ => pk ∈ apks l
  | XOverConf l _ ret => pk ∈ apks l /\ keyed of_key (apks l) ret
  | XOverlay l ps out => (pk ∈ apks l \/ pk ∈ apks out) /\ keyed of_key (apks l) ps
  | XDone (OGpa (ROk r)) => pk ∈ apks r
  | XDone (OGpa (RErr _)) => True
  | _ => False
  end.
(** A query that lists [pk] only if it is listed. *)
Definition only (ts : tstore) (x : tthr) : Prop :=
  match x with
  | XGpa p fl _ => asks w p fl
  | XGpaOwner o m _ _ => w = WOwner o /\ m = None
  | XGpaRows o mi ixs _ _ => w = WOwner o /\ mi = None /\ forall i, i ∈ default [] ixs -> i ∈ default [] (ts_by_owner ts !! prefix4 o)
  | XGpaMint m _ _ => w = WMint m
  | XRows q out _ _ => (forall t, t ∈ q -> ta_deleted t = false -> ta_pubkey t = pk -> listed ts) /\ (pk ∈ apks out -> listed ts)
  | XOver l _ | XOverPend l _ _ => pk ∈ apks l -> listed ts
  | XOverConf l _ ret => (pk ∈ apks l -> listed ts) /\ keyed of_key (apks l) ret
  | XOverlay l ps out => (pk ∈ apks l \/ pk ∈ apks out -> listed ts) /\ keyed of_key (apks l) ps
  | XDone (OGpa (ROk r)) => pk ∈ apks r -> listed ts
  | XDone (OGpa (RErr _)) => True
  | _ => False
  end.
Lemma will_stays ts ts' x : ginv E L ts -> ginv E L ts' -> grows ts ts' -> will ts x -> will ts' x.
Proof.
  intros Hg Hg' G. destruct x; simpl; try done. intros (Hw & Hmi & i & t & Hi & Hl & Hk & Ho). split; [done|]. split; [done|].
  destruct (row_keeps _ _ _ _ Hg Hg' G Hl Hk) as (t' & Hl' & Hk' & Hx). exists i, t'. split_and!; try done. rewrite Hw in Hx. congruence.
Qed.
Lemma only_stays ts ts' x : ginv E L ts -> ginv E L ts' -> grows ts ts' -> only ts x -> only ts' x.
Proof.
  intros Hg Hg' G. pose proof (listed_stays _ _ Hg Hg' G) as Hl. destruct x; simpl; try done; try naive_solver.
  - intros (Hw & Hmi & H). split; [done|]. split; [done|]. intros i Hi. by apply (gr_own _ _ G), H.
  - destruct r as [| | | |[r|]|]; simpl; try done. naive_solver.
Qed.
Lemma keyed_tail l ps a o : keyed of_key (apks (a :: l)) (o :: ps) -> keyed of_key (apks l) ps.
Proof. intros H i x Hi. apply (H (S i) x). done. Qed.
Lemma will_shown ts c l : pk ∈ apks l -> will ts (shown c l).
Proof. by destruct c. Qed.
Lemma only_shown ts c l : (pk ∈ apks l -> listed ts) -> only ts (shown c l).
Proof. by destruct c. Qed.
(** What a piece of a query renders. *)
Lemma token_key_of t slot wv mints o : token_to_acct t slot wv mints = Done o ->
  match o with Some b => d_pubkey b = ta_pubkey t /\ ta_deleted t = false | None => ta_deleted t = true end.
Proof. destruct o as [b|]; intros H; [by apply token_to_acct_some in H as (? & ? & _)|by eapply token_to_acct_none]. Qed.
Lemma version_key ts x slot wv o : ginv E L ts -> addable E L ts x -> tpa_to_acct x slot wv (ts_mints ts) = Done o ->
  (forall b, o = Some b -> d_pubkey b = tpa_pubkey x) /\ (tpa_pubkey x = pk -> is_Some o).
Proof.
  intros Hg (Hok & H1 & H2) Hr. split.
  - intros b ->. by destruct (render_genuine E L HW ts x slot wv b Hg H2 H1 Hr) as [[? _] _].
  - intros Hx. pose proof (not_closed x H2 Hx) as Hnd. destruct x as [t|m|m q|q]; simpl in Hr.
    + destruct o as [b|]; [eauto|]. apply token_to_acct_none in Hr. destruct Hok as (_ & _ & Hd). congruence.
    + injection Hr as <-. eauto.
    + destruct (multisig_to_acct m q slot wv); [|done]. injection Hr as <-. eauto.
    + by destruct (Hnd q).
Qed.
Lemma will_piece ts t ts' t' : ginv E L ts -> tho E L ts t -> listed ts -> will ts t -> tpiece E X ts t = Some (Done (ts', t')) -> ts' = ts /\ will ts t'.
Proof.
  intros Hg Ht Hli Hs Hp. pose proof (gi_t _ _ _ Hg) as T. destruct t; try done; simpl in Hp; simpl in Ht; simpl in Hs.
  - destruct Hs as (l & -> & Hf). injection Hp as <- <-. split; [done|]. destruct (_ && _); [done|]. rewrite Hf. by destruct w eqn:Ew.
  - destruct Hs as [Hw ->]. injection Hp as <- <-. split; [done|]. simpl. split; [done|]. split; [done|]. destruct Hli as (i & t & Hl & Hk & Hx). rewrite Hw in Hx. destruct Hx as [Ho Hi]. by exists i, t.
  - destruct Hs as (Hw & -> & i & t & Hi & Hl & Hk & Ho). destruct ixs as [ixs|]; [|by apply elem_of_nil in Hi]. simpl in Hi. unfold tb_by_index in Hp.
    destruct (from_all_spec (ts_table ts) (elements (list_to_set ixs : gset nat)) (ti_table _ T) (NoDup_elements _)) as (js & l & Hfa & Hnd & Hsub & Hf2 & Hall).
    rewrite Hfa in Hp. cbn [mbind res_bind] in Hp. injection Hp as <- <-. split; [done|]. left. exists t. split; [|by destruct Hl].
    apply elem_of_list_filter. split; [unfold keep_token; by apply N.eqb_eq|]. destruct Hl as [Hst _].
    assert (i ∈ js) as Hj by (apply (Hall i t); [by apply elem_of_elements, elem_of_list_to_set|done]).
    apply elem_of_list_lookup in Hj as [n Hn]. destruct (Forall2_lookup_l _ _ _ _ _ Hf2 Hn) as (t1 & Hn1 & Hst1). rewrite (stored_fun _ _ _ _ Hst Hst1). by eapply elem_of_list_lookup_2.
  - destruct Hli as (i & t & Hl & Hk & Hx). rewrite Hs in Hx. destruct Hx as (j & Hj & Hi). rewrite Hj in Hp. destruct (ts_by_mint ts !! j) as [ixs|]; [|by apply elem_of_nil in Hi]. simpl in Hi. unfold tb_by_index in Hp.
    destruct (from_all_spec (ts_table ts) (elements (list_to_set ixs : gset nat)) (ti_table _ T) (NoDup_elements _)) as (js & l & Hfa & Hnd & Hsub & Hf2 & Hall).
    rewrite Hfa in Hp. cbn [mbind res_bind] in Hp. injection Hp as <- <-. split; [done|]. left. exists t. split; [|by destruct Hl]. destruct Hl as [Hst _].
    assert (i ∈ js) as Hj' by (apply (Hall i t); [by apply elem_of_elements, elem_of_list_to_set|done]).
    apply elem_of_list_lookup in Hj' as [n Hn]. destruct (Forall2_lookup_l _ _ _ _ _ Hf2 Hn) as (t1 & Hn1 & Hst1). rewrite (stored_fun _ _ _ _ Hst Hst1). by eapply elem_of_list_lookup_2.
  - destruct q as [|tk q]; [injection Hp as <- <-; split; [done|]; apply will_shown; destruct Hs as [(? & Hn & _)|?]; [by apply elem_of_nil in Hn|done]|].
    destruct (token_to_acct tk fin 0 (ts_mints ts)) as [o|] eqn:Ho; [|done]. cbn [mbind res_bind] in Hp. injection Hp as <- <-. split; [done|]. simpl. apply token_key_of in Ho.
    destruct Hs as [(t & [->|Hq]%elem_of_cons & Hd & Hk)|Hin].
    + right. destruct o as [b|]; [|congruence]. destruct Ho as [Ho _]. unfold apks. rewrite fmap_app. apply elem_of_app. right. simpl. apply elem_of_list_singleton. congruence.
    + left. eauto.
    + right. destruct o as [b|]; [|done]. unfold apks. rewrite fmap_app. apply elem_of_app. by left.
  - by injection Hp as <- <-.
  - injection Hp as <- <-. split; [done|]. pose proof (keyed_none of_key (apks l) (length l)) as H0. destruct c; [|done..].
    pose proof (top_of_key ts (apks l) conf _ T H0) as H1. unfold apks in H1. destruct (proc_top _ _ _ _) as [ret more]. destruct more; simpl; [done|]. split; [by left|done].
  - destruct Hs as [Hin Hk]. destruct (conf_walk _ _ _ _ _) as [r|] eqn:Hr; [|done]. apply (walk_of_key _ _ _ _ _ _ T Hk) in Hr. cbn [unwrap mbind res_bind] in Hp. injection Hp as <- <-. split; [done|]. split; [by left|done].
  - destruct Hs as [Hin Hk]. destruct l as [|a l].
    { destruct ps; injection Hp as <- <-; (split; [done|]); simpl; rewrite app_nil_r; destruct Hin as [Hin|?]; [by apply elem_of_nil in Hin|done|by apply elem_of_nil in Hin|done]. }
    destruct ps as [|o ps]; [injection Hp as <- <-; split; [done|]; simpl; unfold apks; rewrite fmap_app; apply elem_of_app; tauto|].
    pose proof (keyed_tail _ _ _ _ Hk) as Hk'. destruct o as [[[ty wv] s]|]; cbn [mbind res_bind] in Hp.
    + destruct (tpa_to_acct ty s wv (ts_mints ts)) as [x|] eqn:Hx; [|done]. cbn [mbind res_bind] in Hp. injection Hp as <- <-. split; [done|]. split; [|done].
      destruct (version_key ts ty s wv x Hg) as [V1 V2]; [apply (Ht ((ty, wv), s)); left|done|]. destruct (Hk 0%nat _ eq_refl) as (q & Hq & Hof). simpl in Hq. injection Hq as <-. unfold of_key in Hof. simpl in Hof.
      destruct Hin as [[He|Hin]%elem_of_cons|Hin]; [|by left|].
      * right. destruct V2 as [b ->]; [congruence|]. unfold apks. rewrite fmap_app. apply elem_of_app. right. simpl. apply elem_of_list_singleton. rewrite (V1 b eq_refl). congruence.
      * right. destruct x; [|done]. unfold apks. rewrite fmap_app. apply elem_of_app. by left.
    + injection Hp as <- <-. split; [done|]. split; [|done]. unfold apks. rewrite fmap_app. destruct Hin as [[He|Hin]%elem_of_cons|Hin]; [|by left|].
      * right. apply elem_of_app. right. rewrite He. by left.
      * right. apply elem_of_app. by left.
Qed.
Lemma only_piece ts t ts' t' : ginv E L ts -> tho E L ts t -> only ts t -> tpiece E X ts t = Some (Done (ts', t')) -> ts' = ts /\ only ts t'.
Proof.
  intros Hg Ht Hs Hp. pose proof (gi_t _ _ _ Hg) as T. destruct t; try done; simpl in Hp; simpl in Ht; simpl in Hs.
  - destruct Hs as (l & -> & Hf). injection Hp as <- <-. split; [done|]. destruct (_ && _); [done|]. rewrite Hf. by destruct w eqn:Ew.
  - destruct Hs as [Hw ->]. injection Hp as <- <-. split; [done|]. simpl. done.
  - destruct Hs as (Hw & -> & Hi). destruct ixs as [ixs|]; [|injection Hp as <- <-; split; [done|]; apply only_shown; intros Hn; by apply elem_of_nil in Hn]. simpl in Hi. unfold tb_by_index in Hp.
    destruct (from_all_spec (ts_table ts) (elements (list_to_set ixs : gset nat)) (ti_table _ T) (NoDup_elements _)) as (js & l & Hfa & Hnd & Hsub & Hf2 & Hall).
    rewrite Hfa in Hp. cbn [mbind res_bind] in Hp. injection Hp as <- <-. split; [done|]. split; [|intros Hn; by apply elem_of_nil in Hn].
    intros t Hin Hd Hk. apply elem_of_list_filter in Hin as [Hkeep Hin]. apply elem_of_list_lookup in Hin as [n Hn]. destruct (Forall2_lookup_r _ _ _ _ _ Hf2 Hn) as (i & Hj & Hst).
    exists i, t. split; [done|]. split; [done|]. rewrite Hw. split; [unfold keep_token in Hkeep; by apply N.eqb_eq in Hkeep|]. apply Hi.
    apply elem_of_list_lookup_2, Hsub in Hj. by apply elem_of_elements, elem_of_list_to_set in Hj.
  - destruct (ts_mint_ix ts !! m) as [j|] eqn:Hj; [|injection Hp as <- <-; split; [done|]; apply only_shown; intros Hn; by apply elem_of_nil in Hn].
    destruct (ts_by_mint ts !! j) as [ixs|] eqn:Hb; [|injection Hp as <- <-; split; [done|]; apply only_shown; intros Hn; by apply elem_of_nil in Hn]. unfold tb_by_index in Hp.
    destruct (from_all_spec (ts_table ts) (elements (list_to_set ixs : gset nat)) (ti_table _ T) (NoDup_elements _)) as (js & l & Hfa & Hnd & Hsub & Hf2 & Hall).
    rewrite Hfa in Hp. cbn [mbind res_bind] in Hp. injection Hp as <- <-. split; [done|]. split; [|intros Hn; by apply elem_of_nil in Hn].
    intros t Hin Hd Hk. apply elem_of_list_lookup in Hin as [n Hn]. destruct (Forall2_lookup_r _ _ _ _ _ Hf2 Hn) as (i & Hjs & Hst).
    exists i, t. split; [done|]. split; [done|]. rewrite Hs. exists j. split; [done|]. rewrite Hb. simpl.
    apply elem_of_list_lookup_2, Hsub in Hjs. by apply elem_of_elements, elem_of_list_to_set in Hjs.
  - destruct Hs as [H1 H2]. destruct q as [|tk q]; [injection Hp as <- <-; split; [done|]; by apply only_shown|].
    destruct (token_to_acct tk fin 0 (ts_mints ts)) as [o|] eqn:Ho; [|done]. cbn [mbind res_bind] in Hp. injection Hp as <- <-. split; [done|]. simpl. apply token_key_of in Ho. split.
    + intros t Hin. apply H1. by right.
    + destruct o as [b|]; [|done]. destruct Ho as [Ho Hd]. unfold apks. rewrite fmap_app, elem_of_app. intros [?|Hb]; [by apply H2|]. simpl in Hb. apply elem_of_list_singleton in Hb.
      apply (H1 tk); [left|done|congruence].
  - by injection Hp as <- <-.
  - injection Hp as <- <-. split; [done|]. pose proof (keyed_none of_key (apks l) (length l)) as H0. destruct c; [|done..].
    pose proof (top_of_key ts (apks l) conf _ T H0) as H1. unfold apks in H1. destruct (proc_top _ _ _ _) as [ret more]. destruct more; simpl; [done|]. split; [|done]. intros [?|Hn]; [by apply Hs|by apply elem_of_nil in Hn].
  - destruct Hs as [Hin Hk]. destruct (conf_walk _ _ _ _ _) as [r|] eqn:Hr; [|done]. apply (walk_of_key _ _ _ _ _ _ T Hk) in Hr. cbn [unwrap mbind res_bind] in Hp. injection Hp as <- <-. split; [done|].
    split; [|done]. intros [?|Hn]; [by apply Hin|by apply elem_of_nil in Hn].
  - destruct Hs as [Hin Hk]. destruct l as [|a l].
    { destruct ps; injection Hp as <- <-; (split; [done|]); simpl; rewrite app_nil_r; tauto. }
    destruct ps as [|o ps]; [injection Hp as <- <-; split; [done|]; simpl; unfold apks; rewrite fmap_app; rewrite elem_of_app; unfold apks in Hin; tauto|].
    pose proof (keyed_tail _ _ _ _ Hk) as Hk'. assert (pk ∈ apks l \/ pk ∈ apks out \/ pk = d_pubkey a -> listed ts) as Hin'.
    { intros H. apply Hin. unfold apks in *. rewrite fmap_cons, elem_of_cons. tauto. }
    destruct o as [[[ty wv] s]|]; cbn [mbind res_bind] in Hp.
    + destruct (tpa_to_acct ty s wv (ts_mints ts)) as [x|] eqn:Hx; [|done]. cbn [mbind res_bind] in Hp. injection Hp as <- <-. split; [done|]. split; [|done].
      destruct (version_key ts ty s wv x Hg) as [V1 V2]; [apply (Ht ((ty, wv), s)); left|done|]. destruct (Hk 0%nat _ eq_refl) as (q & Hq & Hof). simpl in Hq. injection Hq as <-. unfold of_key in Hof. simpl in Hof.
      destruct x as [b|]; [|tauto]. unfold apks. rewrite fmap_app, elem_of_app. simpl. rewrite elem_of_list_singleton. intros H. apply Hin'. unfold apks. rewrite (V1 b eq_refl) in H. rewrite <- Hof. tauto.
    + injection Hp as <- <-. split; [done|]. split; [|done]. unfold apks. rewrite fmap_app, elem_of_app. simpl. rewrite elem_of_list_singleton. intros H. apply Hin'. unfold apks. tauto.
Qed.
Lemma reach_grows cs cs' : treach E X (calm_call E L) cs cs' -> cinv E L cs -> grows (tc_ts cs) (tc_ts cs').
Proof.
  induction 1 as [cs|cs k u ts u' cs2 Hj Hp _ IH|cs u cs2 Hc Ho _ IH]; intros Hi; [apply grows_refl| |].
  - destruct (cinv_step E X L HW _ _ _ _ _ Hi Hj Hp) as [Hi' _]. destruct Hi as [Hg Hth]. eapply grows_trans; [|by apply IH]. eapply piece_grows; [done| |done]. by eapply Forall_lookup_1.
  - apply (IH (cinv_call E L HW _ _ Hi Hc Ho)).
Qed.
Lemma step_grows cs k u ts u' : cinv E L cs -> tc_thr cs !! k = Some u -> tpiece E X (tc_ts cs) u = Some (Done (ts, u')) -> ginv E L ts /\ grows (tc_ts cs) ts.
Proof.
  intros Hi Hj Hp. destruct (cinv_step E X L HW _ _ _ _ _ Hi Hj Hp) as [[? _] _]. split; [done|]. destruct Hi as [Hg Hth]. eapply piece_grows; [done| |done]. by eapply Forall_lookup_1.
Qed.
(** A property of one call that its pieces keep and that stays when others move. *)
Lemma reach_pred (G : tconc -> Prop) (P : tstore -> tthr -> Prop) :
  (forall cs k u ts u', cinv E L cs -> G cs -> tc_thr cs !! k = Some u -> tpiece E X (tc_ts cs) u = Some (Done (ts, u')) -> G (TConc ts (<[k := u']> (tc_thr cs)))) ->
  (forall cs u, cinv E L cs -> G cs -> is_call u = true -> calm_call E L cs u -> G (TConc (tc_ts cs) (tc_thr cs ++ [u]))) ->
  (forall cs k u ts u', cinv E L cs -> G cs -> tc_thr cs !! k = Some u -> P (tc_ts cs) u -> tpiece E X (tc_ts cs) u = Some (Done (ts, u')) -> ts = tc_ts cs /\ P ts u') ->
  (forall ts ts' x, ginv E L ts -> ginv E L ts' -> grows ts ts' -> P ts x -> P ts' x) ->
  forall cs cs' j, treach E X (calm_call E L) cs cs' -> cinv E L cs -> G cs -> forall t, tc_thr cs !! j = Some t -> P (tc_ts cs) t -> exists t', tc_thr cs' !! j = Some t' /\ P (tc_ts cs') t'.
Proof.
  intros H1 H2 H3 H4 cs cs' j. induction 1 as [cs|cs k u ts u' cs2 Hj Hp _ IH|cs u cs2 Hc Ho _ IH]; intros Hi HG t Ht Ha; [eauto| |].
  - destruct (cinv_step E X L HW _ _ _ _ _ Hi Hj Hp) as [Hi' _]. specialize (IH Hi' (H1 _ _ _ _ _ Hi HG Hj Hp)). destruct (decide (k = j)) as [->|Hne].
    + assert (u = t) as -> by congruence. apply (IH u'); [simpl; apply list_lookup_insert; by eapply lookup_lt_Some|]. by destruct (H3 _ _ _ _ _ Hi HG Hj Ha Hp) as [_ ?].
    + apply (IH t); [simpl; by rewrite list_lookup_insert_ne|]. simpl. destruct (step_grows _ _ _ _ _ Hi Hj Hp) as [Hg' Gr]. destruct Hi as [Hg _]. by apply (H4 (tc_ts cs)).
  - apply (IH (cinv_call E L HW _ _ Hi Hc Ho) (H2 _ _ Hi HG Hc Ho) t); [|done]. simpl. rewrite lookup_app_l; [done|]. by eapply lookup_lt_Some.
Qed.
Lemma reach_will cs cs' j t : treach E X (calm_call E L) cs cs' -> cinv E L cs -> listed (tc_ts cs) -> tc_thr cs !! j = Some t -> will (tc_ts cs) t ->
  exists t', tc_thr cs' !! j = Some t' /\ will (tc_ts cs') t'.
Proof.
  intros Hr Hi Hl. revert t. apply (reach_pred (fun cs => listed (tc_ts cs)) will) with (cs := cs); try done.
  - intros cs1 k u ts u' Hi1 HG Hj Hp. destruct (step_grows _ _ _ _ _ Hi1 Hj Hp) as [Hg' Gr]. destruct Hi1 as [Hg _]. simpl. by apply (listed_stays (tc_ts cs1)).
  - intros cs1 k u ts u' [Hg Hth] HG Hj Hw Hp. destruct (will_piece _ _ _ _ Hg (Forall_lookup_1 _ _ _ _ Hth Hj) HG Hw Hp) as [-> ?]. done.
  - apply will_stays.
Qed.
Lemma reach_only cs cs' j t : treach E X (calm_call E L) cs cs' -> cinv E L cs -> tc_thr cs !! j = Some t -> only (tc_ts cs) t -> exists t', tc_thr cs' !! j = Some t' /\ only (tc_ts cs') t'.
Proof.
  intros Hr Hi. revert t. apply (reach_pred (fun _ => True) only) with (cs := cs); try done.
  - intros cs1 k u ts u' [Hg Hth] HG Hj Hw Hp. destruct (only_piece _ _ _ _ Hg (Forall_lookup_1 _ _ _ _ Hth Hj) Hw Hp) as [-> ?]. done.
  - apply only_stays.
Qed.
End stay.

(** ** Reads *)
Section reads.
Context (E : ext) (X : lz4x) (L : list tsop) (HW : calm_world E L) (HT : tidy E L) (pk : pubkey) (HN : never_closed L pk).
(** The finalized part of the store has [pk]. *)
Definition has_row (ts : tstore) : Prop := exists i, row_at pk ts i.
Definition served (ts : tstore) : Prop := is_Some (ts_multi ts !! pk) \/ is_Some (ts_mint_ix ts !! pk) \/ has_row ts.
Lemma has_row_stays ts ts' : grows pk ts ts' -> has_row ts -> has_row ts'.
Proof. intros G [i Hi]. exists i. by apply (gr_row _ _ _ G). Qed.
Lemma served_stays ts ts' : grows pk ts ts' -> served ts -> served ts'.
Proof.
  intros G [?|[[i ?]|?]]; [left; by apply (gr_multi _ _ _ G)|right; left; exists i; by apply (gr_ix _ _ _ G)|right; right; by eapply has_row_stays].
Qed.
Lemma row_found cs : cfg E L cs -> has_row (tc_ts cs) -> exists t, tb_get (ts_table (tc_ts cs)) pk = Done (Some t) /\ ta_deleted t = false.
Proof.
  intros HC (i & t & Hl & Hk). pose proof (cf_inv _ _ _ HC) as [Hg Hth]. pose proof (gi_t _ _ _ Hg) as T. assert (at_pos (ts_table (tc_ts cs)) pk i t) as Ha.
  { destruct (cf_key _ _ _ HC _ _ Hl) as [Ha|(x & Hx & Hh)]; [by rewrite Hk in Ha|]. exfalso. destruct x; simpl in Hh; try done.
    pose proof (cf_thr _ _ _ HC) as Hq. rewrite Forall_forall in Hq. destruct (Hq _ Hx) as [_ Hq']. specialize (Hq' _ _ Hh Hl). rewrite Forall_forall in Hth. destruct (Hth _ Hx) as ((o & Ho & Hcf) & _).
    apply comes_closes in Hcf. apply (HN o); [done|]. congruence. }
  destruct (rep_exists _ (ti_table _ T)) as [m0 Hrep]. exists t. rewrite (tb_get_spec _ _ pk (ti_table _ T) Hrep). split; [|apply Hl]. f_equal. apply Hrep. eauto.
Qed.
(** A read that will find the account. *)
Definition finds (ts : tstore) (x : tthr) : Prop :=
  match x with
  | XGet q _ | XPend q _ _ => q = pk /\ served ts
  | XGetFin q => q = pk /\ served ts
  | XPendConf q _ ret => q = pk /\ served ts /\ keyed of_key [pk] ret
  | XShow ty _ => tpa_pubkey ty = pk
  | XGetMint q => q = pk /\ (is_Some (ts_mint_ix ts !! pk) \/ has_row ts)
  | XGetRow q => q = pk /\ has_row ts
  | XRowSlot t | XRow t _ => ta_deleted t = false
  | XDone (OGet o) => is_Some o
  | _ => False
  end.
Lemma finds_stays ts ts' x : grows pk ts ts' -> finds ts x -> finds ts' x.
Proof.
  intros G. pose proof (served_stays _ _ G) as H1. pose proof (has_row_stays _ _ G) as H2. destruct x; simpl; try done; try naive_solver.
  intros [Hq [[i Hi]|Hr]]; (split; [done|]); [left; exists i; by apply (gr_ix _ _ _ G)|right; by apply H2].
Qed.
Lemma finds_piece cs t ts' t' : cfg E L cs -> t ∈ tc_thr cs -> finds (tc_ts cs) t -> tpiece E X (tc_ts cs) t = Some (Done (ts', t')) -> ts' = tc_ts cs /\ finds (tc_ts cs) t'.
Proof.
  intros HC Hin Hs Hp. pose proof (cf_inv _ _ _ HC) as [Hg Hth]. pose proof (gi_t _ _ _ Hg) as T. rewrite Forall_forall in Hth. pose proof (Hth _ Hin) as Ht. clear Hth Hin.
  pose proof (row_found cs HC) as Hrow. set (ts := tc_ts cs) in *. clearbody ts. destruct t; try done; simpl in Hp; simpl in Ht; simpl in Hs.
  - destruct c; by injection Hp as <- <-.
  - destruct Hs as [-> Hs]. apply (inj Some) in Hp. destruct c; [|injection Hp as <- <-; (split; [done|]); split; [done|]; split; [done|]; apply (keyed_none of_key [pk] 1)..].
    pose proof (top_of_key ts [pk] conf [None] T (keyed_none of_key [pk] 1)) as Hk. destruct (proc_top _ _ _ _) as [ret more]. simpl in Hk. destruct more; [by injection Hp as <- <-|].
    destruct (head ret) as [o|] eqn:Hh; [|done]. cbn [unwrap mbind res_bind] in Hp. injection Hp as <- <-. split; [done|]. destruct o as [[[ty wv] s]|]; [|done]. by apply (head_of_key _ _ _ Hk Hh).
  - destruct Hs as (-> & Hs & Hk). apply (inj Some) in Hp. destruct (conf_walk _ _ _ _ _) as [r|] eqn:Hr; [|done]. apply (walk_of_key _ _ _ _ _ _ T Hk) in Hr. cbn [unwrap mbind res_bind] in Hp.
    destruct (head r) as [o|] eqn:Hh; [|done]. cbn [unwrap mbind res_bind] in Hp. injection Hp as <- <-. split; [done|]. destruct o as [[[ty wv] s]|]; [|done]. by apply (head_of_key _ _ _ Hr Hh).
  - destruct (tpa_to_acct ty slot 0 (ts_mints ts)) as [o|] eqn:Ho; [|done]. cbn [mbind res_bind] in Hp. injection Hp as <- <-. split; [done|].
    destruct (version_key E L HW pk HN ts ty slot 0 o Hg Ht Ho) as [_ H]. by apply H.
  - destruct Hs as [-> Hs]. destruct (ts_multi ts !! pk) as [m|] eqn:Hm.
    { destruct (multisig_to_acct m pk (ts_fin ts) 0) as [b|] eqn:Hb; [|done]. cbn [mbind res_bind] in Hp. injection Hp as <- <-. split; [done|]. simpl. eauto. }
    injection Hp as <- <-. split; [done|]. split; [done|]. destruct Hs as [[? Hs]|Hs]; [congruence|done].
  - destruct Hs as [-> Hs]. destruct (ts_mint_ix ts !! pk) as [i|] eqn:Hi.
    { destruct (ts_mints ts !! i) as [m|] eqn:Hm; [|done]. cbn [unwrap mbind res_bind] in Hp. injection Hp as <- <-. split; [done|]. simpl. eauto. }
    injection Hp as <- <-. split; [done|]. split; [done|]. destruct Hs as [[? Hs]|Hs]; [congruence|done].
  - destruct Hs as [-> Hs]. destruct (Hrow Hs) as (t & Hg' & Hd). rewrite Hg' in Hp. cbn [mbind res_bind] in Hp. injection Hp as <- <-. split; [done|]. simpl. by rewrite Hd.
  - by injection Hp as <- <-.
  - destruct (token_to_acct t slot 0 (ts_mints ts)) as [o|] eqn:Ho; [|done]. cbn [mbind res_bind] in Hp. injection Hp as <- <-. split; [done|]. simpl.
    apply token_key_of in Ho. destruct o; [eauto|congruence].
Qed.
(** A finalized read that finds the account only if the store has it. *)
Definition shows (ts : tstore) (x : tthr) : Prop :=
  match x with
  | XGet q c => q = pk /\ c = Finalized
  | XGetFin q | XGetMint q | XGetRow q => q = pk
  | XRowSlot _ | XRow _ _ => has_row ts
  | XDone (OGet o) => is_Some o -> served ts
  | _ => False
  end.
Lemma shows_stays ts ts' x : grows pk ts ts' -> shows ts x -> shows ts' x.
Proof.
  intros G. pose proof (served_stays _ _ G) as H1. pose proof (has_row_stays _ _ G) as H2. destruct x; simpl; try done. destruct r; naive_solver.
Qed.
Lemma shows_piece ts t ts' t' : ginv E L ts -> tho E L ts t -> shows ts t -> tpiece E X ts t = Some (Done (ts', t')) -> ts' = ts /\ shows ts t'.
Proof.
  intros Hg Ht Hs Hp. pose proof (gi_t _ _ _ Hg) as T. destruct t; try done; simpl in Hp; simpl in Ht; simpl in Hs.
  - destruct Hs as [-> ->]. by injection Hp as <- <-.
  - subst pk0. destruct (ts_multi ts !! pk) as [m|] eqn:Hm; [|by injection Hp as <- <-].
    destruct (multisig_to_acct m pk (ts_fin ts) 0) as [b|] eqn:Hb; [|done]. cbn [mbind res_bind] in Hp. injection Hp as <- <-. split; [done|]. intros _. left. eauto.
  - subst pk0. destruct (ts_mint_ix ts !! pk) as [i|] eqn:Hi; [|by injection Hp as <- <-].
    destruct (ts_mints ts !! i) as [m|] eqn:Hm; [|done]. cbn [unwrap mbind res_bind] in Hp. injection Hp as <- <-. split; [done|]. intros _. right; left. eauto.
  - subst pk0. destruct (rep_exists _ (ti_table _ T)) as [m0 Hrep]. rewrite (tb_get_spec _ _ pk (ti_table _ T) Hrep) in Hp. cbn [mbind res_bind] in Hp. injection Hp as <- <-. split; [done|].
    destruct (m0 !! pk) as [tk|] eqn:Hk; [|by intros [? ?]]. apply Hrep in Hk as (i & Ha). destruct (ta_deleted tk) eqn:Hd; [by intros [? ?]|]. destruct Ha as (Hst & Hk & _). exists i, tk. done.
  - by injection Hp as <- <-.
  - destruct (token_to_acct t slot 0 (ts_mints ts)) as [o|] eqn:Ho; [|done]. cbn [mbind res_bind] in Hp. injection Hp as <- <-. split; [done|]. intros _. by right; right.
Qed.
Lemma reach_finds cs cs' j t : treach E X (calm_call E L) cs cs' -> cfg E L cs -> tc_thr cs !! j = Some t -> finds (tc_ts cs) t -> exists t', tc_thr cs' !! j = Some t' /\ finds (tc_ts cs') t'.
Proof.
  intros Hr Hi. pose proof (cf_inv _ _ _ Hi) as Hi'. revert t. apply (reach_pred E X L HW pk HN (cfg E L) finds) with (cs := cs); try done.
  - intros cs1 k u ts u' _ HG Hj Hp. by eapply cfg_step.
  - intros cs1 u _ HG Hc Ho. by eapply cfg_call.
  - intros cs1 k u ts u' _ HG Hj Hw Hp. destruct (finds_piece _ _ _ _ HG (elem_of_list_lookup_2 _ _ _ Hj) Hw Hp) as [-> ?]. done.
  - intros ts ts' x _ _. apply finds_stays.
Qed.
Lemma reach_shows cs cs' j t : treach E X (calm_call E L) cs cs' -> cinv E L cs -> tc_thr cs !! j = Some t -> shows (tc_ts cs) t -> exists t', tc_thr cs' !! j = Some t' /\ shows (tc_ts cs') t'.
Proof.
  intros Hr Hi. revert t. apply (reach_pred E X L HW pk HN (fun _ => True) shows) with (cs := cs); try done.
  - intros cs1 k u ts u' [Hg Hth] HG Hj Hw Hp. destruct (shows_piece _ _ _ _ Hg (Forall_lookup_1 _ _ _ _ Hth Hj) Hw Hp) as [-> ?]. done.
  - intros ts ts' x _ _. apply shows_stays.
Qed.
End reads.
