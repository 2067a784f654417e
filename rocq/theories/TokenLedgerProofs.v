(** Token accounts and the ledger: the ledger of an orderly stream, the effect of one call, and the chain of confirmed slots. *)
From Verif Require Import Base SMap DataModel BincodeModel BincodeProofs FilterModel StoreModel TokenModel TokenProofs TokenProps SplModel SplProofs TokenUtilsModel
  TokenUtilsProofs TokenPendModel TokenPendSpec TokenPendProofs TokenPendProps TokenUtilsProps TokenStoreModel TokenStoreSpec TokenStoreProofs TokenStoreViews TokenStoreProps TokenStoreOrder
  TokenStoreQuery TokenStoreQueryProps TokenStoreSafe TokenStoreServed TokenLedgerSpec.
#[local] Arguments le : simpl never.
#[local] Arguments unle : simpl never.
#[local] Opaque to_bytes from_bytes peek_pubkey.

(** ** The confirmed slots form a line *)
Fixpoint linked (c : list (N * N)) : Prop :=
  match c with
  | [] => True
  | (s, p) :: c' => p < s /\ match c' with [] => True | (t, _) :: _ => p = t end /\ linked c'
  end.
Lemma linked_le c : linked c -> forall s p x q, head c = Some (s, p) -> (x, q) ∈ c -> x <= s.
Proof.
  induction c as [|[s0 p0] c IH]; intros H s p x q; simpl; [done|]. intros [= -> ->]. simpl in H. destruct H as (H1 & H2 & H3).
  rewrite elem_of_cons. intros [[= -> ->]|Hin]; [lia|]. destruct c as [|[t u] c]; [by apply elem_of_nil in Hin|]. specialize (IH H3 t u x q eq_refl Hin). lia.
Qed.
Lemma linked_fun c x p q : linked c -> (x, p) ∈ c -> (x, q) ∈ c -> p = q.
Proof.
  induction c as [|[s0 p0] c IH]; intros H H1 H2; [by apply elem_of_nil in H1|]. simpl in H. destruct H as (Hlt & Hn & Hl).
  assert (forall q', (s0, q') ∈ c -> False) as Hno.
  { intros q' Hin. destruct c as [|[t u] c]; [by apply elem_of_nil in Hin|]. pose proof (linked_le _ Hl t u s0 q' eq_refl Hin). lia. }
  rewrite elem_of_cons in H1, H2. destruct H1 as [H1|H1], H2 as [H2|H2]; simplify_eq; [done|by destruct (Hno q)|by destruct (Hno p)|by apply IH].
Qed.
Lemma linked_lt c x p : linked c -> (x, p) ∈ c -> p < x.
Proof.
  induction c as [|[s0 p0] c IH]; intros H Hin; [by apply elem_of_nil in Hin|]. simpl in H. destruct H as (Hlt & Hn & Hl).
  rewrite elem_of_cons in Hin. destruct Hin as [[= -> ->]|Hin]; [done|by apply IH].
Qed.
Lemma linked_next c x p y q : linked c -> (x, p) ∈ c -> (y, q) ∈ c -> y < x -> y <= p /\ exists q', (p, q') ∈ c.
Proof.
  induction c as [|[s0 p0] c IH]; intros H Hx Hy Hlt; [by apply elem_of_nil in Hx|]. simpl in H. destruct H as (H1 & H2 & H3).
  rewrite elem_of_cons in Hx, Hy. destruct Hx as [Hx|Hx], Hy as [Hy|Hy]; simplify_eq; [lia| | |].
  - destruct c as [|[t u] c]; [by apply elem_of_nil in Hy|]. subst p0. split; [by apply (linked_le _ H3 t u y q)|]. exists u. right. left.
  - destruct c as [|[t u] c]; [by apply elem_of_nil in Hx|]. pose proof (linked_le _ H3 t u x p eq_refl Hx). lia.
  - destruct (IH H3 Hx Hy Hlt) as [? [q' ?]]. split; [done|]. exists q'. by right.
Qed.
(** Going up from a confirmed slot one reaches a confirmed slot, or leaves the line at its end. *)
Lemma linked_up c x p : linked c -> (x, p) ∈ c -> (exists q, (p, q) ∈ c) \/ exists t, last c = Some (t, p).
Proof.
  induction c as [|[s0 p0] c IH]; intros H Hx; [by apply elem_of_nil in Hx|]. simpl in H. destruct H as (H1 & H2 & H3).
  rewrite elem_of_cons in Hx. destruct Hx as [[= -> ->]|Hx].
  - destruct c as [|[t u] c]; [right; by exists s0|]. subst p0. left. exists u. right. left.
  - destruct (IH H3 Hx) as [[q ?]|[t Ht]]; [left; exists q; by right|right]. exists t. by destruct c as [|[t' u'] c].
Qed.

(** ** Ledgers *)
Record tl_ok (L : tledger) : Prop := TlOk {
  lk_linked : linked (tl_conf L);
  lk_root : forall r, is_root L r -> ~ touched L r /\ ~ is_confirmed L r;
  lk_pos : forall s, touched L s \/ is_confirmed L s -> 0 < s;
  lk_fin : forall f, tl_fin L = Some f -> is_confirmed L f;
  lk_base : forall a b, a ∈ tl_writes L -> b ∈ tl_base L -> d_pubkey b = d_pubkey a -> d_slot b < d_slot a }.
Lemma tl_ok_empty : tl_ok no_tledger.
Proof.
  constructor; simpl; try done; [intros r [t Ht]; done| |intros a b Ha; by apply elem_of_nil in Ha].
  intros s [[H|(a & H & _)]|[p H]]; simpl in H; [set_solver|by apply elem_of_nil in H..].
Qed.
Lemma confirmed_head L t u : tl_ok L -> head (tl_conf L) = Some (t, u) -> forall s, is_confirmed L s -> s <= t.
Proof. intros Hok Hh s [p Hp]. by apply (linked_le _ (lk_linked _ Hok) t u s p). Qed.
Lemma last_in {A} (l : list A) x : last l = Some x -> x ∈ l.
Proof. intros H. apply last_Some in H as [l' ->]. set_solver. Qed.
Lemma root_low L r s : tl_ok L -> is_root L r -> is_confirmed L s -> r < s.
Proof.
  intros Hok [t Ht] [p Hp]. assert ((t, r) ∈ tl_conf L) as Hin by (by apply last_in). pose proof (linked_lt _ _ _ (lk_linked _ Hok) Hin).
  destruct (N.lt_ge_cases s t) as [Hlt|Hge]; [|lia].
  destruct (linked_next _ t r s p (lk_linked _ Hok) Hin Hp Hlt) as [_ [q Hq]].
  exfalso. destruct (lk_root _ Hok r) as [_ Hn]; [by exists t|]. apply Hn. by exists q.
Qed.
Lemma last_cons_some {A} (x : A) l : l <> [] -> last (x :: l) = last l.
Proof. by destruct l. Qed.
Lemma tl_ok_event E L o L' : tl_ok L -> tevent E L o L' -> tl_ok L'.
Proof.
  intros Hok H. pose proof Hok as [H1 H2 H0 H3 H4]. destruct H as [a Hw Hc Hb|ord si Hp Hn Hr|a Hz Hn Hr Hb|ord si Hp Hs Hc|ord si Hp Hn Hu|ord si Hc Hu].
  - constructor; simpl; try done.
    + intros r [t Ht]. done.
    + intros s [[H|(b & H & _)]|[p H]]; simpl in H; [apply H0; left; by left|by apply elem_of_nil in H..].
    + intros f Hf. apply H3 in Hf as [p Hp]. rewrite Hc in Hp. by apply elem_of_nil in Hp.
    + intros x y Hx. by apply elem_of_nil in Hx.
  - constructor; simpl; try done.
    + intros r Hrt. destruct (H2 r Hrt) as [Ht Hcf]. split; [|done]. intros [Hx|Hx]; [|apply Ht; by right].
      simpl in Hx. apply elem_of_union in Hx as [->%elem_of_singleton|Hx]; [done|]. apply Ht. by left.
    + intros s [[H|H]|H]; [|apply H0; left; by right|apply H0; by right]. simpl in H. apply elem_of_union in H as [->%elem_of_singleton|H]; [lia|]. apply H0. left. by left.
  - constructor; simpl; try done.
    + intros r Hrt. destruct (H2 r Hrt) as [Ht Hcf]. split; [|done]. intros [Hx|(b & Hx & Hs)]; [apply Ht; by left|]. simpl in Hx.
      apply elem_of_app in Hx as [Hx| ->%elem_of_list_singleton]; [apply Ht; right; by exists b|]. subst r. done.
    + intros s [[H|(b & H & Hs)]|H]; [apply H0; left; by left| |apply H0; by right]. simpl in H.
      apply elem_of_app in H as [H| ->%elem_of_list_singleton]; [apply H0; left; right; by exists b|by subst s].
    + intros x y [Hx| ->%elem_of_list_singleton]%elem_of_app Hy; [by apply H4|by apply Hb].
  - constructor; simpl; try done.
    + split; [done|]. split; [|done]. destruct (tl_conf L) as [|[t u] c]; [done|done].
    + intros r [t Ht]. simpl in Ht. unfold touched, is_confirmed. simpl. destruct (tl_conf L) as [|[t' u'] c] eqn:Hcf.
      * simpl in Ht. injection Ht as <- <-. split; [exact Hc|]. intros [q Hq]. apply elem_of_list_singleton in Hq. injection Hq as ? _. lia.
      * assert (is_root L r) as Hrt. { exists t. rewrite Hcf. by rewrite last_cons_some in Ht. } destruct (H2 r Hrt) as [Hnt Hnc].
        split; [exact Hnt|]. intros [q Hq]. apply elem_of_cons in Hq as [[= -> ->]|Hq].
        -- assert (is_confirmed L t') as Hct by (exists u'; rewrite Hcf; left). pose proof (root_low L _ _ Hok Hrt Hct). lia.
        -- apply Hnc. exists q. by rewrite Hcf.
    + intros s [H|[p H]]; [apply H0; by left|]. simpl in H. apply elem_of_cons in H as [[= -> ->]|H]; [lia|]. apply H0. right. by exists p.
    + intros f Hf. apply H3 in Hf as [p Hq]. exists p. by right.
  - done.
  - constructor; simpl; try done. intros f [= <-]. by eexists.
Qed.
Lemma orderly_tl_ok E l L : t_orderly E l L -> tl_ok L.
Proof. induction 1; [apply tl_ok_empty|]. by eapply tl_ok_event. Qed.

(** ** The effect of one call *)
Lemma insert_present p pk a wv slot s : sm_sorted p -> present (pd_insert p pk a wv slot).1 s <-> present p s \/ s = slot.
Proof.
  intros Hs. pose proof (pd_insert_sorted p pk a wv slot Hs) as Hs'. rewrite !present_get by done. unfold pd_insert.
  destruct (decide (s = slot)) as [->|Hns].
  - destruct (sm_get slot p) as [b|] eqn:Hb; [|simpl; rewrite sm_get_put; naive_solver].
    destruct (ps_accounts b !! pk) as [[a0 w]|]; [destruct (w <? wv)|]; simpl; rewrite ?sm_get_put, ?Hb; naive_solver.
  - repeat case_match; simpl; rewrite ?sm_get_put_ne by congruence; naive_solver.
Qed.
Lemma slot_info_present p si s : sm_sorted p -> present (pd_slot_info p si) s <-> present p s \/ s = si_slot si.
Proof.
  intros Hs. pose proof (pd_slot_info_sorted p si Hs) as Hs'. rewrite !present_get by done. unfold pd_slot_info.
  destruct (decide (s = si_slot si)) as [->|Hns].
  - destruct (sm_get (si_slot si) p) as [b|] eqn:Hb; rewrite sm_get_put; naive_solver.
  - case_match; rewrite sm_get_put_ne by congruence; naive_solver.
Qed.
Lemma version_present p s pk v : version p s pk v -> present p s.
Proof. intros (b & Hb & _). by exists b. Qed.

Definition fin_pend (ts : tstore) (si : slot_info) : pend := if ts_fin ts <? si_slot si then pd_slot_info (ts_pend ts) si else ts_pend ts.
Lemma step_view E X ts o ts' : ts_step E X ts o = Done ts' ->
  match o with
  | TInit _ => ts_pend ts' = ts_pend ts /\ ts_conf ts' = ts_conf ts /\ ts_fin ts' = ts_fin ts
  | TUpdate a Processed => ts_conf ts' = ts_conf ts /\ ts_fin ts' = ts_fin ts /\
      ts_pend ts' = match accepted E ts a with Some ty => (pd_insert (ts_pend ts) (d_pubkey a) ty (d_wv a) (d_slot a)).1 | None => ts_pend ts end
  | TSlot ord si Processed => ts_conf ts' = ts_conf ts /\ ts_fin ts' = ts_fin ts /\ ts_pend ts' = pd_slot_info (ts_pend ts) si
  | TSlot ord si Confirmed => ts_fin ts' = ts_fin ts /\ ts_conf ts' = N.max (ts_conf ts) (si_slot si) /\
      let p1 := if ts_conf ts <? si_slot si then pd_slot_info (ts_pend ts) si else ts_pend ts in
      ts_pend ts' = if sm_get (si_slot si) p1 then p1 else pd_slot_info p1 si
  | TSlot ord si Finalized => ts_conf ts' = ts_conf ts /\ ts_fin ts' = N.max (ts_fin ts) (si_slot si) /\
      ts_pend ts' = (pd_finalize (fin_pend ts si) (si_slot si)).1
  | _ => True
  end.
Proof.
  intros H. destruct o as [a c|a|ord si c|p b]; [| | |done].
  - destruct c; [|done..]. simpl in H. unfold ts_update in H. unfold accepted. destruct (is_token ts a) as [[]|]; [|by injection H as <-|done].
    cbn [mbind res_bind] in H. destruct (account_type _ _ _ _) as [[[[ty ix] ctr]|]|]; [|by injection H as <-|done].
    cbn [mbind res_bind set_ix ts_pend] in H. destruct (pd_insert _ _ _ _ _) as [p b0]. by injection H as <-.
  - simpl in H. unfold ts_init in H. destruct (is_token ts a) as [[]|]; [|by injection H as <-|done].
    cbn [mbind res_bind] in H. destruct (account_type _ _ _ _) as [[[[ty ix] ctr]|]|]; [|by injection H as <-|done].
    cbn [mbind res_bind] in H. rewrite (add_finalized_pend _ _ _ H), (add_finalized_conf _ _ _ H), (add_finalized_fin _ _ _ H). done.
  - simpl in H. unfold ts_slot in H. destruct c.
    + cbn [mbind res_bind] in H. by injection H as <-.
    + set (ts1 := if ts_conf ts <? si_slot si then _ else _) in H. destruct (pd_for_slot _ _ _) as [[p l]|] eqn:Hfs; [|done]. cbn [mbind res_bind] in H. injection H as <-.
      apply pd_for_slot_pend in Hfs. cbn [set_pend ts_pend ts_fin ts_conf]. subst p. unfold ts1.
      destruct (N.ltb_spec (ts_conf ts) (si_slot si)); cbn [set_pend set_conf ts_pend ts_fin ts_conf]; split_and!; try done; lia.
    + unfold fin_pend. destruct (N.ltb_spec (ts_fin ts) (si_slot si)) as [Hlt|Hge]; cbn [set_fin set_pend ts_pend] in H;
      destruct (pd_finalize _ _) as [p m]; (destruct (to_accts _ _) as [r|]; [|done]); cbn [mbind res_bind] in H;
      (destruct (add_all _ _) as [ts2|] eqn:H2; [|done]); cbn [mbind res_bind] in H; injection H as <-;
      rewrite (add_all_pend _ _ _ H2), (add_all_conf _ _ _ H2), (add_all_fin _ _ _ H2); simpl; split_and!; try done; lia.
Qed.

(** ** The slots of the pending store and those of the ledger *)
Record tslots (E : ext) (L : tledger) (ts : tstore) : Prop := TSlots {
  sl_conf : ts_conf ts = match tl_conf L with [] => 0 | (t, _) :: _ => t end;
  sl_fin : ts_fin ts = default 0 (tl_fin L);
  sl_seen : forall s, seen E L s -> unfinal L s -> present (ts_pend ts) s;
  sl_touched : forall s, present (ts_pend ts) s -> touched L s \/ is_confirmed L s;
  sl_chain : forall s p, (s, p) ∈ tl_conf L -> unfinal L s -> parent (ts_pend ts) s p;
  sl_gone : forall s, is_final L s -> ~ present (ts_pend ts) s }.
Lemma confirmed_cases L s : tl_ok L -> is_confirmed L s -> is_final L s \/ unfinal L s.
Proof.
  intros Hok Hc. destruct (tl_fin L) as [f|] eqn:Hf; [|right; intros f Hf'; congruence].
  destruct (N.lt_ge_cases f s); [right; intros f' Hf'; congruence|left; split; [done|by exists f]].
Qed.
Lemma parent_present p s s' : parent p s s' -> present p s.
Proof. intros (b & Hb & _). by exists b. Qed.
Lemma parent_fun p s q q' : sm_sorted p -> parent p s q -> parent p s q' -> q = q'.
Proof. intros Hs (b & Hb & Hq)%(parent_get _ Hs) (b' & Hb' & Hq')%(parent_get _ Hs). congruence. Qed.
(** The recorded chain of a confirmed slot is the line of confirmed slots down to the newest finalized one. *)
Lemma chain_is E L ts x : tl_ok L -> tslots E L ts -> sm_sorted (ts_pend ts) -> is_confirmed L x -> unfinal L x ->
  forall y, on_chain (ts_pend ts) x y <-> is_confirmed L y /\ unfinal L y /\ y <= x.
Proof.
  intros Hok Hsl Hs Hx Hux y. split.
  - intros Hc. revert Hx Hux. induction Hc as [x Hp|x q y Hp Hc IH]; intros [p Hx] Hux.
    + split; [by exists p|]. split; [done|lia].
    + pose proof (parent_fun _ _ _ _ Hs Hp (sl_chain _ _ _ Hsl _ _ Hx Hux)) as ->.
      pose proof (linked_lt _ _ _ (lk_linked _ Hok) Hx) as Hlt.
      assert (present (ts_pend ts) p) as Hpp by (inversion Hc; subst; [done|by eapply parent_present]).
      destruct (linked_up _ _ _ (lk_linked _ Hok) Hx) as [Hq|Hr].
      * destruct (confirmed_cases L p Hok Hq) as [Hf|Hu]; [by destruct (sl_gone _ _ _ Hsl _ Hf)|]. destruct (IH Hq Hu) as (? & ? & ?). split; [done|]. split; [done|lia].
      * destruct (lk_root _ Hok p Hr) as [Hn1 Hn2]. by destruct (sl_touched _ _ _ Hsl _ Hpp).
  - intros (Hy & Huy & Hle). revert Hx Hux Hle. induction (N.lt_wf_0 x) as [x _ IH]. intros [p Hx] Hux Hle.
    destruct (decide (y = x)) as [->|Hne]; [constructor; eapply parent_present; by apply (sl_chain _ _ _ Hsl _ _ Hx)|].
    destruct Hy as [q Hy]. destruct (linked_next _ x p y q (lk_linked _ Hok) Hx Hy) as [Hle' Hp]; [lia|].
    apply (CUp _ _ p); [by apply (sl_chain _ _ _ Hsl)|]. apply IH; [by apply (linked_lt _ _ _ (lk_linked _ Hok) Hx)|done| |done].
    intros f Hf. apply Huy in Hf. lia.
Qed.

Lemma owned_token ts a : token_owned a -> is_token ts a = Done true.
Proof. intros [H|H]; unfold is_token; rewrite H; simpl; by rewrite ?orb_true_r. Qed.
Lemma type_closed E a ix ctr : closed a -> account_type E a ix ctr = Done (Some (TPDeleted (d_pubkey a), ix, ctr)).
Proof.
  intros Hc. unfold account_type. assert ((d_lamports a =? 0) || (negb (d_owner a =? spl_token_id) && negb (d_owner a =? spl_2022_id)) = true) as ->; [|done].
  destruct Hc as [->|Hn]; [done|]. apply orb_true_iff. right. apply andb_true_iff. split; apply negb_true_iff, N.eqb_neq; intros He; apply Hn; [by left|by right].
Qed.
Lemma token_write_accepted E ts a : token_write E a -> is_Some (accepted E ts a).
Proof.
  intros [Ho H]. unfold accepted. rewrite (owned_token _ _ Ho). destruct H as [Hl|(p & v & Hl & [[r Hr]|[[r Hr]|[r Hr]]])].
  - rewrite type_closed by (by left). by eexists.
  - rewrite (type_token _ _ _ _ _ _ _ Hl Hr). destruct (mint_index _ _ _) as [[? ?] ?]. by eexists.
  - rewrite (type_mint _ _ _ _ _ _ _ Hl Hr). by eexists.
  - rewrite (type_multisig _ _ _ _ _ _ _ Hl Hr). by eexists.
Qed.
Lemma tslots_empty E : tslots E no_tledger ts_empty.
Proof.
  constructor; simpl; try done.
  - intros s [H|(a & H & _)]; [set_solver|by apply elem_of_nil in H].
  - intros s (b & Hb). by apply elem_of_nil in Hb.
  - intros s p H. by apply elem_of_nil in H.
  - intros s [[p H] _]. by apply elem_of_nil in H.
Qed.
Lemma fin_pend_is E L ts si : tl_ok L -> tslots E L ts -> sm_sorted (ts_pend ts) -> (si_slot si, si_parent si) ∈ tl_conf L -> unfinal L (si_slot si) ->
  fin_pend ts si = pd_slot_info (ts_pend ts) si /\ (forall s s', parent (fin_pend ts si) s s' <-> parent (ts_pend ts) s s') /\
  (forall s, present (fin_pend ts si) s <-> present (ts_pend ts) s) /\ (forall s pk v, version (fin_pend ts si) s pk v <-> version (ts_pend ts) s pk v).
Proof.
  intros Hok Hsl Hs Hin Hu. pose proof (sl_chain _ _ _ Hsl _ _ Hin Hu) as Hp. pose proof (parent_present _ _ _ Hp) as Hpr.
  assert (fin_pend ts si = pd_slot_info (ts_pend ts) si) as ->.
  { unfold fin_pend. destruct (N.ltb_spec (ts_fin ts) (si_slot si)) as [|Hge]; [done|]. exfalso. rewrite (sl_fin _ _ _ Hsl) in Hge.
    pose proof (linked_lt _ _ _ (lk_linked _ Hok) Hin). destruct (tl_fin L) as [f|] eqn:Hf; simpl in Hge; [specialize (Hu f Hf)|]; lia. }
  split; [done|]. split; [|split].
  - intros s s'. rewrite (slot_info_parent _ si s s' Hs). destruct (decide _) as [->|]; [|done]. split; [by intros [_ ->]|]. intros Hp'. split; [done|]. by eapply parent_fun.
  - intros s. rewrite (slot_info_present _ _ _ Hs). split; [|by left]. by intros [?| ->].
  - intros s pk v. by apply slot_info_version.
Qed.
Lemma tslots_event E X L o L' ts ts' : tl_ok L -> tslots E L ts -> sm_sorted (ts_pend ts) -> tevent E L o L' -> ts_step E X ts o = Done ts' -> tslots E L' ts'.
Proof.
  intros Hok Hsl Hs Hev Hst. apply step_view in Hst. pose proof Hsl as [S1 S2 S3 S4 S5 S6]. pose proof (tl_ok_event _ _ _ _ Hok Hev) as Hok'.
  destruct Hev as [a Hw Hc Hb|ord si Hp Hn Hr|a H0 Hn Hr Hb|ord si Hp Hse Hc|ord si Hp Hn Hu|ord si Hin Hu].
  - destruct Hst as (V1 & V2 & V3). constructor; simpl; rewrite ?V1, ?V2, ?V3; try done.
    + by rewrite S1, Hc.
    + intros s [H|(b & H & _)] Hu; [|by apply elem_of_nil in H]. apply S3; [by left|done].
    + intros s H. apply S4 in H as [[H|(b & H & _)]|[p H]]; [left; by left| |].
      * rewrite Hw in H. by apply elem_of_nil in H.
      * rewrite Hc in H. by apply elem_of_nil in H.
    + intros s p H. by apply elem_of_nil in H.
    + intros s [[p H] _]. by apply elem_of_nil in H.
  - destruct Hst as (V1 & V2 & V3). constructor; simpl; rewrite ?V1, ?V2, ?V3; try done.
    + intros s Hse Hu. apply slot_info_present; [done|]. destruct Hse as [H|H]; simpl in H; [|left; apply S3; [by right|done]].
      apply elem_of_union in H as [->%elem_of_singleton|H]; [by right|]. left. apply S3; [by left|done].
    + intros s H. apply slot_info_present in H; [|done]. destruct H as [H| ->]; [|left; left; simpl; set_solver].
      apply S4 in H as [[H|H]|H]; [left; left; simpl; set_solver|left; by right|by right].
    + intros s p H Hu. apply slot_info_parent; [done|]. destruct (decide _) as [->|]; [|by apply S5]. destruct Hn. by exists p.
    + intros s H Hpr. apply slot_info_present in Hpr; [|done]. destruct Hpr as [Hpr| ->]; [by apply (S6 s)|]. destruct H as [H _]. by apply Hn.
  - destruct Hst as (V1 & V2 & V3). assert (forall s, present (ts_pend ts') s -> present (ts_pend ts) s \/ s = d_slot a) as Hpr.
    { intros s. rewrite V3. destruct (accepted E ts a); [|by left]. by rewrite insert_present. }
    assert (forall s, present (ts_pend ts) s -> present (ts_pend ts') s) as Hpr'.
    { intros s. rewrite V3. destruct (accepted E ts a); [|done]. rewrite insert_present by done. by left. }
    constructor; simpl; rewrite ?V1, ?V2; try done.
    + intros s Hse Hu. destruct Hse as [H|(b & H & Hsb & Htw)]; simpl in H; [apply Hpr', S3; [by left|done]|].
      apply elem_of_app in H as [H| ->%elem_of_list_singleton]; [apply Hpr', S3; [right; by exists b|done]|].
      rewrite V3. destruct (token_write_accepted E ts a Htw) as [ty ->]. rewrite insert_present by done. by right.
    + intros s H. apply Hpr in H as [H| ->]; [|left; right; exists a; simpl; set_solver].
      apply S4 in H as [[H|(b & H & ?)]|H]; [left; by left|left; right; exists b; simpl; set_solver|by right].
    + intros s p H Hu. rewrite V3. destruct (accepted E ts a); [|by apply S5]. rewrite insert_parent by done. by apply S5.
    + intros s H Hpre. apply Hpr in Hpre as [Hpre| ->]; [by apply (S6 s)|]. destruct H as [H _]. by apply Hn.
  - destruct Hst as (V1 & V2 & V3).
    assert (ts_conf ts < si_slot si) as Hlt. { rewrite S1. destruct (tl_conf L) as [|[t u] c]; lia. }
    assert (unfinal L (si_slot si)) as Huf.
    { intros f Hf. apply (lk_fin _ Hok) in Hf as [q Hq]. destruct (tl_conf L) as [|[t u] c] eqn:Hcf; [by apply elem_of_nil in Hq|].
      assert (f <= t); [|lia]. apply (confirmed_head L t u Hok); [by rewrite Hcf|]. exists q. by rewrite Hcf. }
    pose proof (S3 _ Hse Huf) as Hpr. apply N.ltb_lt in Hlt as Hlt'. rewrite Hlt' in V3. simpl in V3.
    assert (ts_pend ts' = pd_slot_info (ts_pend ts) si) as V4.
    { rewrite V3. destruct (sm_get (si_slot si) (pd_slot_info (ts_pend ts) si)) eqn:Hg; [done|]. exfalso.
      assert (present (pd_slot_info (ts_pend ts) si) (si_slot si)) as Hx by (apply slot_info_present; [done|by left]).
      apply present_get in Hx as [? ?]; [congruence|by apply pd_slot_info_sorted]. }
    constructor; simpl; rewrite ?V1, ?V2, ?V4; try done; [lia|..].
    + intros s Hse' Hu'. apply slot_info_present; [done|]. left. by apply S3.
    + intros s H. apply slot_info_present in H; [|done]. destruct H as [H| ->]; [|right; exists (si_parent si); left].
      apply S4 in H as [H|[p H]]; [by left|right; exists p; by right].
    + intros s p H Hu'. apply slot_info_parent; [done|]. apply elem_of_cons in H as [[= -> ->]|H]; [by rewrite decide_True|].
      destruct (decide (s = si_slot si)) as [->|]; [|by apply S5]. exfalso. destruct (tl_conf L) as [|[t u] c] eqn:Hcf; [by apply elem_of_nil in H|].
      assert (si_slot si <= t); [|lia]. apply (confirmed_head L t u Hok); [by rewrite Hcf|]. exists p. by rewrite Hcf.
    + intros s [[p H] (f & Hf & Hle)] Hpre. simpl in Hf. apply slot_info_present in Hpre; [|done].
      assert (s <> si_slot si) as Hne by (intros ->; specialize (Huf f Hf); lia). destruct Hpre as [Hpre|?]; [|done].
      apply (S6 s); [|done]. simpl in H. apply elem_of_cons in H as [[= ? ?]|H]; [done|]. split; [by exists p|by exists f].
  - destruct Hst as (V1 & V2 & V3). destruct Hn as [p Hin]. pose proof (parent_present _ _ _ (S5 _ _ Hin Hu)) as Hpr.
    assert (si_slot si <= ts_conf ts) as Hle.
    { rewrite S1. destruct (tl_conf L) as [|[t u] c] eqn:Hcf; [by apply elem_of_nil in Hin|]. apply (confirmed_head L t u Hok); [by rewrite Hcf|]. exists p. by rewrite Hcf. }
    assert (ts_conf ts <? si_slot si = false) as Hb by (by apply N.ltb_ge). rewrite Hb in V3. simpl in V3.
    assert (ts_pend ts' = ts_pend ts) as V4. { rewrite V3. apply present_get in Hpr as [b ->]; done. }
    constructor; rewrite ?V1, ?V2, ?V4; try done. rewrite <- S1. lia.
  - destruct Hst as (V1 & V2 & V3). destruct (fin_pend_is E L ts si Hok Hsl Hs Hin Hu) as (F0 & F1 & F2 & F3).
    assert (sm_sorted (fin_pend ts si)) as Hs1 by (rewrite F0; by apply pd_slot_info_sorted).
    destruct (finalize_spec (fin_pend ts si) (si_slot si) Hs1) as (Hs2 & _ & G1 & G2). rewrite <- V3 in Hs2, G1, G2.
    assert (forall y, on_chain (fin_pend ts si) (si_slot si) y <-> on_chain (ts_pend ts) (si_slot si) y) as Hch.
    { intros y. split.
      - intros Hy. clear - Hy F1 F2. induction Hy as [x Hx|x q y Hx _ IH]; [apply CHere; by apply F2|apply (CUp _ x q y); [by apply F1|done]].
      - intros Hy. clear - Hy F1 F2. induction Hy as [x Hx|x q y Hx _ IH]; [apply CHere; by apply F2|apply (CUp _ x q y); [by apply F1|done]]. }
    assert (is_confirmed L (si_slot si)) as Hcs by (by eexists).
    assert (forall y, on_chain (fin_pend ts si) (si_slot si) y -> y <= si_slot si) as Hle.
    { intros y Hy. apply Hch in Hy. by apply (chain_is E L ts (si_slot si) Hok Hsl Hs Hcs Hu) in Hy as (_ & _ & ?). }
    assert (forall s, si_slot si < s -> sm_get s (ts_pend ts') = sm_get s (fin_pend ts si)) as Hkeep.
    { intros s Hlt. destruct (G1 s) as [H|H]; [done|]. apply G2 in H as Hg. destruct Hg as [Hg|[Hg|Hg]]; [congruence|lia|]. apply Hle in Hg. lia. }
    assert (forall s, unfinal (TLedger (tl_base L) (tl_writes L) (tl_announced L) (tl_conf L) (Some (si_slot si))) s -> unfinal L s /\ si_slot si < s) as Huf.
    { intros s H. specialize (H (si_slot si) eq_refl). split; [|done]. intros f Hf. specialize (Hu f Hf). lia. }
    constructor; simpl; rewrite ?V1, ?V2; try done.
    + rewrite S2. destruct (tl_fin L) as [f|] eqn:Hf; simpl; [|lia]. specialize (Hu f Hf). lia.
    + intros s Hse [Hu' Hlt]%Huf. apply present_get; [done|]. rewrite Hkeep by done. apply present_get; [done|]. apply F2, S3; [exact Hse|done].
    + intros s H. apply present_get in H as [b Hb]; [|done]. assert (present (ts_pend ts) s) as Hpr.
      { apply F2, present_get; [done|]. destruct (G1 s) as [H|H]; [|congruence]. by rewrite <- H, Hb. }
      by apply S4.
    + intros s p H [Hu' Hlt]%Huf. apply parent_get; [done|]. rewrite Hkeep by done. apply parent_get; [done|]. by apply F1, S5.
    + intros s [Hcf (f & [= <-] & Hle')] Hpre. apply present_get in Hpre as [b Hb]; [|done]. assert (sm_get s (ts_pend ts') = None) by (apply G2; right; by left). congruence.
Qed.
