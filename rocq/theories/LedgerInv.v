(** On an orderly stream the store shows the ledger: the invariant. *)
From Verif Require Import Base SMap DataModel FilterModel BincodeModel ByCommitModel ByCommitSpec ByCommitProofs
  StoreModel StoreSpec StoreProofs StoreSlot StoreViews StoreHist LedgerSpec LedgerProofs.

(** ** The ledger stays well-formed *)
Lemma branch_more L L' t s : (forall x y, lg_parent L !! x = Some y -> lg_parent L' !! x = Some y) -> branch L t s -> branch L' t s.
Proof.
  intros H [H1 [p H2]]. split; [|exists p; auto]. clear H2. induction H1 as [|x y z Hxy _ IH]; [apply rtc_refl|]. eapply rtc_l; [|exact IH]. by apply H.
Qed.
Lemma branch_less L L' s p t x : lg_parent L' = <[s := p]> (lg_parent L) -> ~ known L s -> (forall x y, lg_parent L !! x = Some y -> y <> s) ->
  t <> s -> branch L' t x -> branch L t x.
Proof.
  intros Hp Hs Hno Hts [H Hk]. unfold known in Hk. rewrite Hp in Hk.
  assert (rtc (up L) t x /\ x <> s) as [H1 H2].
  { clear Hk. induction H as [t|t u x Htu _ IH]; [split; [apply rtc_refl|done]|]. simpl in Htu. rewrite Hp, lookup_insert_ne in Htu by done.
    destruct IH as [H1 H2]; [by eapply Hno|]. split; [|done]. by eapply rtc_l. }
  split; [done|]. by rewrite lookup_insert_ne in Hk.
Qed.
Lemma new_slot_fresh L s : lg_ok L -> lg_root L = None \/ (~ known L s /\ exists p, known L p /\ p < s) ->
  ~ known L s /\ forall x y, lg_parent L !! x = Some y -> y <> s.
Proof.
  intros Hok [Hr|(Hn & p & Hp & Hlt)].
  - destruct (lo_none _ Hok Hr) as (He & _). unfold known. rewrite He. split; [rewrite lookup_empty; by intros [? ?]|]. intros x y. by rewrite lookup_empty.
  - split; [done|]. intros x y Hxy ->. destruct (lo_parent _ Hok _ _ Hxy) as [Hsx [Hr|Hk]]; [|done]. pose proof (lo_min _ Hok _ _ Hp Hr) as ?.
    lia.
Qed.
Lemma lg_ok_empty : lg_ok no_ledger.
Proof. constructor; simpl; intros *; rewrite ?lookup_empty; try done; try set_solver. Qed.
Lemma lg_ok_event L o L' : lg_ok L -> event L o L' -> lg_ok L'.
Proof.
  intros Hok He. destruct He as [| | |a Hr|si Hr Hlt Hbase|si Hn Hp Hlt| |a Hk Hc|si Hsp Hcf|si Hsp Hcm|si Hsp Hcm Hf]; try done.
  - destruct (lo_none _ Hok Hr) as (H1 & H2 & H3 & H4). constructor; simpl; try done; rewrite ?H1, ?H2, ?H3, ?H4; try done; set_solver.
  - destruct (lo_none _ Hok Hr) as (H1 & H2 & H3 & H4). constructor; unfold known; simpl; rewrite ?H1, ?H2, ?H3, ?H4; try done.
    + intros r [= <-]. rewrite lookup_insert. eauto.
    + intros s p Hsp. apply lookup_insert_Some in Hsp as [[<- <-]|[_ Hsp]]; [split; [done|by left]|by rewrite lookup_empty in Hsp].
    + intros s r [p Hsp] [= <-]. apply lookup_insert_Some in Hsp as [[<- <-]|[_ Hsp]]; [lia|by rewrite lookup_empty in Hsp].
    + intros a r Ha [= <-]. by apply Hbase.
    + set_solver.
  - destruct (new_slot_fresh L (si_slot si) Hok) as [_ Hno]; [right; eauto|].
    assert (forall x y, lg_parent L !! x = Some y -> <[si_slot si := si_parent si]> (lg_parent L) !! x = Some y) as Hm.
    { intros x y Hxy. rewrite lookup_insert_ne; [done|]. intros <-. apply Hn. by exists y. }
    destruct (known_root _ _ Hok Hp) as [r Hr].
    constructor; unfold known; simpl.
    + congruence.
    + intros r' Hr'. destruct (lo_root _ Hok _ Hr') as [y Hy]. exists y. by apply Hm.
    + intros s p Hsp. apply lookup_insert_Some in Hsp as [[<- <-]|[_ Hsp]].
      * split; [done|]. right. destruct Hp as [y Hy]. exists y. by apply Hm.
      * destruct (lo_parent _ Hok _ _ Hsp) as [? [?|[y Hy]]]; (split; [done|]); [by left|right; exists y; by apply Hm].
    + intros s r' [p Hsp] Hr'. apply lookup_insert_Some in Hsp as [[<- <-]|[_ Hsp]]; [pose proof (lo_min _ Hok _ _ Hp Hr'); lia|].
      eapply (lo_min _ Hok); [|done]. by exists p.
    + intros t Ht. destruct (lo_conf _ Hok _ Ht) as [y Hy]. exists y. by apply Hm.
    + intros f Hf. destruct (lo_fin _ Hok _ Hf) as (t & Ht & Hb). exists t. split; [done|]. by eapply branch_more; [|exact Hb].
    + apply (lo_base _ Hok).
    + intros a Ha. destruct (lo_writes _ Hok _ Ha) as [y Hy]. exists y. by apply Hm.
  - destruct Hok as [H1 H2 H3 H4 H5 H6 H7 H8]. constructor; simpl; try done.
    + intros Hr. destruct Hk as [p Hp]. destruct (H1 Hr) as (E & _). by rewrite E, lookup_empty in Hp.
    + intros x. rewrite elem_of_app, elem_of_list_singleton. intros [Hx| ->]; [by apply H8|done].
  - destruct Hok as [H1 H2 H3 H4 H5 H6 H7 H8]. constructor; simpl; try done.
    + intros Hr. destruct (H1 Hr) as (E & _). by rewrite E, lookup_empty in Hsp.
    + intros t [= <-]. by exists (si_parent si).
    + intros f Hf. destruct (H6 f Hf) as (t & Ht & Hb). rewrite Ht in Hcf. exists (si_slot si). split; [done|].
      eapply branch_up; [exact Hsp|]. eapply branch_trans; [exact (proj1 Hcf)|exact Hb].
  - destruct Hok as [H1 H2 H3 H4 H5 H6 H7 H8]. constructor; simpl; try done.
    + intros Hr. destruct (H1 Hr) as (E & _). by rewrite E, lookup_empty in Hsp.
    + intros f [= <-]. exact Hcm.
Qed.

(** ** The slots the store knows *)
Definition bottom (L : ledger) : option N := match lg_fin L with Some f => Some f | None => lg_root L end.
Record slot_inv (L : ledger) (sl : gmap N status) : Prop := SlotInv {
  sv_pre : lg_root L = None -> forall s ss, sl !! s = Some ss -> ss_accounts ss = ∅ /\ ss_parent ss = None /\ exists a, a ∈ lg_base L /\ d_slot a = s;
  sv_dom : forall r s, lg_root L = Some r -> is_Some (sl !! s) -> known L s \/ s < r;
  sv_q : forall β q ss, bottom L = Some β -> lg_parent L !! β = Some q -> sl !! q = Some ss ->
    ss_accounts ss = ∅ /\ (ss_parent ss = None \/ ss_parent ss = Some β \/ ss_parent ss = Some q);
  sv_known : forall β s, bottom L = Some β -> known L s -> β <= s -> exists ss, sl !! s = Some ss /\ ss_parent ss = lg_parent L !! s /\
    (committed L s -> ss_commit ss <> Processed /\ (lg_fin L <> Some s -> ss_commit ss = Confirmed));
  sv_open : forall s ss, known L s -> ~ committed L s -> sl !! s = Some ss -> ss_commit ss = Processed;
}.
Lemma bottom_known L β : lg_ok L -> bottom L = Some β -> known L β.
Proof.
  intros Hok. unfold bottom. destruct (lg_fin L) as [f|] eqn:Hf; [|apply (lo_root _ Hok)]. intros [= <-].
  destruct (lo_fin _ Hok _ Hf) as (t & _ & _ & Hk). done.
Qed.
Lemma bottom_some L s : lg_ok L -> known L s -> exists β q, bottom L = Some β /\ lg_parent L !! β = Some q /\ q < β.
Proof.
  intros Hok Hk. destruct (known_root _ _ Hok Hk) as [r Hr]. assert (exists β, bottom L = Some β) as [β Hβ] by (unfold bottom; destruct (lg_fin L); eauto).
  destruct (bottom_known _ _ Hok Hβ) as [q Hq]. exists β, q. destruct (lo_parent _ Hok _ _ Hq). done.
Qed.
(** The slot below the bottom is not open. *)
Lemma bottom_parent L β q : lg_ok L -> bottom L = Some β -> lg_parent L !! β = Some q -> known L q -> committed L q.
Proof.
  intros Hok Hβ Hq Hk. unfold bottom in Hβ. destruct (lg_fin L) as [f|] eqn:Hf.
  - injection Hβ as ->. eapply committed_branch; [by apply (lo_fin _ Hok)|]. eapply branch_up; [exact Hq|]. by apply branch_refl.
  - pose proof (lo_min _ Hok _ _ Hk Hβ). destruct (lo_parent _ Hok _ _ Hq). lia.
Qed.
Lemma branch_root L s r : lg_ok L -> known L s -> lg_root L = Some r -> branch L s r.
Proof.
  intros Hok Hk Hr. revert Hk. induction (N.lt_wf_0 s) as [s _ IH]. intros [p Hp]. destruct (lo_parent _ Hok _ _ Hp) as [Hlt [Hs|Hkp]].
  - assert (s = r) as -> by congruence. apply branch_refl. by exists p.
  - eapply branch_up; [exact Hp|]. by apply IH.
Qed.
Lemma committed_le L t s : lg_ok L -> lg_conf L = Some t -> committed L s -> s <= t.
Proof. intros Hok Ht (u & Hu & Hb). rewrite Ht in Hu. injection Hu as <-. by eapply branch_le. Qed.

(** ** One account *)
Section account.
Context (pk : pubkey).
Definition mine (L : ledger) (t : N) (a : acct) : Prop := a ∈ lg_writes L /\ d_pubkey a = pk /\ d_slot a = t.
Record entry_inv (L : ledger) (sl : gmap N status) (i : nat) (b : bycom) : Prop := EntryInv {
  ei_all : bc_all (fun a => a ∈ lg_base L \/ a ∈ lg_writes L) b;
  ei_conf : in_ledger L pk Confirmed (bc_conf b);
  ei_fin : in_ledger L pk Finalized (bc_fin b);
  ei_proc : in_ledger L pk Processed (bc_get b Processed);
  ei_slot : forall t, known L t -> (forall f, lg_fin L = Some f -> f < t) -> latest (mine L t) (sm_get t (bc_proc b));
  ei_acc : forall t β ss, bottom L = Some β -> β <= t -> known L t -> sl !! t = Some ss -> i ∈ ss_accounts ss <-> exists a, mine L t a;
}.
(** An account without entry: no version of it has been delivered or, if it may be closed, it has been closed and
    either ignored from the start or dropped when the closing became final. *)
Definition vers (L : ledger) (a : acct) : Prop := (a ∈ lg_base L \/ a ∈ lg_writes L) /\ d_pubkey a = pk.
Definition gone (m : bool) (L : ledger) : Prop :=
  (forall a, ~ vers L a) \/
  (m = true /\ exists x, vers L x /\ ~ alive x /\ (forall y, vers L y -> y = x \/ ~ version_le x y) /\ ((forall y, vers L y -> y = x) \/ counts L Finalized x)).
Definition pk_inv (m : bool) (L : ledger) (st : store) : Prop :=
  match st_index st !! pk with
  | None => gone m L
  | Some i => exists b, st_accounts st !! i = Some b /\ entry_inv L (st_slots st) i b
  end.
Lemma gone_mono m L L' : (forall a, vers L a <-> vers L' a) -> (forall a, counts L Finalized a -> counts L' Finalized a) -> gone m L -> gone m L'.
Proof.
  intros Hv Hc [H|(-> & x & H1 & H2 & H3 & H4)]; [left; intros a; rewrite <- Hv; auto|right]. split; [done|]. exists x. rewrite <- Hv. split_and!; [done..| |].
  - intros y. rewrite <- Hv. auto.
  - destruct H4 as [H4|H4]; [left; intros y; rewrite <- Hv; auto|right; auto].
Qed.

Lemma latest_ext (P Q : acct -> Prop) o : (forall a, P a <-> Q a) -> latest P o -> latest Q o.
Proof. intros H. destruct o as [x|]; simpl; [intros [H1 H2]; split; [by apply H|]|]; intros; [|rewrite <- H; auto]. apply H2. by apply H. Qed.
Lemma latest_add (P Q : acct -> Prop) o a : (forall x, Q x <-> P x \/ x = a) -> latest P o -> latest Q (if newer o a then Some a else o).
Proof.
  intros H Ho. destruct (newer o a) eqn:Hn.
  - split; [apply H; by right|]. intros x [Hx| ->]%H; [|apply version_le_refl]. destruct o as [y|]; [|by destruct (Ho x)].
    destruct Ho as [_ Ho]. eapply version_le_trans; [by apply Ho|]. by eapply newer_version_le.
  - apply newer_false in Hn as (y & -> & Hle). destruct Ho as [H1 H2]. split; [apply H; by left|]. intros x [Hx| ->]%H; auto.
Qed.
Lemma processed_add (P Q : acct -> Prop) b a c : bc_ok b -> bc_proc b <> [] -> (forall x, Q x <-> P x \/ x = a) ->
  latest P (bc_get b Processed) -> latest Q (bc_get (bc_update b a c).1 Processed).
Proof.
  intros Hb Hne H Ho. rewrite bc_update_unfold. simpl in *. destruct (sm_last_nonempty _ Hne) as (k & p & Hl). rewrite Hl in Ho. destruct Ho as [H1 H2].
  destruct (upd_proc_last b a k p Hb Hl) as (k' & p' & Hl' & Hle & Hk & Ha). rewrite Hl'.
  apply sm_last_spec in Hl as [Hg Hmax]; [|by apply ok_sorted]. apply sm_last_spec in Hl' as [Hg' Hmax']; [|by apply upd_proc_sorted].
  pose proof (upd_proc_key b a _ _ Hb Hg') as Hkey.
  assert ((p' = a \/ p' = p) /\ version_le a p') as [Hor Hle'].
  { destruct (decide (k' = d_slot a)) as [->|Hn].
    - destruct (upd_proc_get b a) as (x & Hx & Hw & Hx'). rewrite Hg' in Hx. injection Hx as <-. split; [|right; lia].
      destruct Hx' as [?|Hx']; [by left|right]. pose proof (Hmax _ _ Hx'). assert (k = d_slot a) as -> by lia. congruence.
    - split; [|left; lia]. rewrite upd_proc_get_ne in Hg' by done. pose proof (Hmax _ _ Hg'). assert (k' = k) as -> by lia. right. congruence. }
  split; [apply H; destruct Hor as [->| ->]; auto|]. intros x [Hx| ->]%H; [|done]. eapply version_le_trans; [by apply H2|done].
Qed.
Lemma in_ledger_ext L L' c o : (forall a, d_pubkey a = pk -> counts L c a <-> counts L' c a) -> in_ledger L pk c o -> in_ledger L' pk c o.
Proof. intros H. apply latest_ext. intros a. naive_solver. Qed.
Lemma in_ledger_add L L' c o a : d_pubkey a = pk -> (forall x, counts L' c x <-> counts L c x \/ x = a) -> in_ledger L pk c o ->
  in_ledger L' pk c (if newer o a then Some a else o).
Proof. intros Ha H. apply latest_add. intros x. rewrite H. naive_solver. Qed.
End account.
