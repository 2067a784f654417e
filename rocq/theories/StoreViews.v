(** What the operations of the account store do to what can be read. *)
From Verif Require Import Base SMap DataModel FilterModel FilterSpec FilterProofs BincodeModel
  ByCommitModel ByCommitSpec ByCommitProofs StoreModel StoreSpec StoreProofs StoreSlot.

Lemma version_at_entry st pk i b c : st_index st !! pk = Some i -> st_accounts st !! i = Some b ->
  version_at st pk c = bc_get b c.
Proof. intros Hi Hb. unfold version_at. rewrite Hi. simpl. by rewrite Hb. Qed.
Lemma version_at_inv st pk c a : version_at st pk c = Some a ->
  exists i b, st_index st !! pk = Some i /\ st_accounts st !! i = Some b /\ bc_get b c = Some a.
Proof.
  unfold version_at. destruct (st_index st !! pk) as [i|]; [|done]. simpl.
  destruct (st_accounts st !! i) as [b|] eqn:Hb; [|done]. simpl. intros H. by exists i, b.
Qed.
Lemma version_at_untracked st pk c : ~ tracked st pk -> version_at st pk c = None.
Proof. intros H. unfold version_at. destruct (st_index st !! pk) eqn:Hi; [|done]. by destruct H; exists n. Qed.
Lemma entry_pk st pk i b c a : st_ok st -> st_index st !! pk = Some i -> st_accounts st !! i = Some b ->
  bc_get b c = Some a -> d_pubkey a = pk.
Proof.
  intros Hok Hi Hb Hg. destruct (so_pk _ Hok _ _ _ Hi Hb) as [Hall _].
  exact (bc_pk_get pk b c a (so_bc _ Hok _ _ Hb) Hall Hg).
Qed.
Lemma version_at_pk st pk c a : st_ok st -> version_at st pk c = Some a -> d_pubkey a = pk.
Proof.
  intros Hok (i & b & Hi & Hb & Hg)%version_at_inv. by eapply entry_pk.
Qed.
Lemma tracked_processed st pk : st_ok st -> tracked st pk <-> is_Some (version_at st pk Processed).
Proof.
  intros Hok. split.
  - intros [i Hi]. destruct (so_entry _ _ _ Hok Hi) as (b & Hb & _ & _ & Hne).
    rewrite (version_at_entry _ _ _ _ _ Hi Hb). simpl. destruct (sm_last_nonempty _ Hne) as (k & p & ->). eauto.
  - intros [a (i & b & Hi & _)%version_at_inv]. by exists i.
Qed.
Lemma store_ladder st pk : st_ok st ->
  (forall y, version_at st pk Finalized = Some y -> exists x, version_at st pk Confirmed = Some x /\ d_slot y <= d_slot x) /\
  (forall x, version_at st pk Confirmed = Some x -> exists p, version_at st pk Processed = Some p /\ d_slot x <= d_slot p).
Proof.
  intros Hok. split; intros a (i & b & Hi & Hb & Hg)%version_at_inv; rewrite (version_at_entry _ _ _ _ _ Hi Hb);
    destruct (bc_ladder b (so_bc _ Hok _ _ Hb)) as [H1 H2]; auto.
Qed.

(** ** Updates *)
(** The commitment an update is applied with: that of the slot if known, except that finalized
    deliveries and first deliveries keep theirs. *)
Definition effective (st : store) (a : acct) (c : commitment) : commitment :=
  match c with
  | Finalized => Finalized
  | _ => match st_slots st !! d_slot a with Some ss => ss_commit ss | None => c end
  end.
Lemma effective_add st a i c sl' c' : add_to_status (st_slots st) (d_slot a) i c = (sl', c') ->
  c' = effective st a c.
Proof. intros (-> & _)%add_to_status_spec. by destruct c. Qed.

Lemma update_other F st a c st' r pk c0 : st_ok st -> update_account F st a c = Done (st', r) ->
  pk <> d_pubkey a -> version_at st' pk c0 = version_at st pk c0.
Proof.
  intros Hok H Hne. apply update_account_inv in H; [|done].
  destruct H as [Hi Hs|sl' cx Hi Hs Hadd|i b sl' c' b' upd ow' Hi Hb Hadd Hu Hud Hud0|i b sl' c' b' prev ow' Hi Hb Hadd Hu Hprev Hud];
    unfold version_at; simpl.
  - done.
  - rewrite lookup_insert_ne by done. destruct (st_index st !! pk) as [j|] eqn:Hj; [|done]. simpl.
    rewrite lookup_app_l; [done|]. by eapply so_bound.
  - destruct (st_index st !! pk) as [j|] eqn:Hj; [|done]. simpl. rewrite list_lookup_insert_ne; [done|].
    intros <-. apply Hne. by eapply so_inj.
  - rewrite lookup_delete_ne by done. destruct (st_index st !! pk) as [j|] eqn:Hj; [|done]. simpl.
    rewrite list_lookup_insert_ne; [done|]. intros <-. apply Hne. by eapply so_inj.
Qed.
Lemma update_tracked_other F st a c st' r pk : st_ok st -> update_account F st a c = Done (st', r) ->
  pk <> d_pubkey a -> tracked st' pk <-> tracked st pk.
Proof.
  intros Hok H Hne. assert (st_ok st') as Hok' by (by eapply update_ok).
  rewrite !tracked_processed by done. by rewrite (update_other F st a c st' r).
Qed.
(** What the updated account reads as. *)
Lemma update_self F st a c st' r : st_ok st -> update_account F st a c = Done (st', r) ->
  (tracked st (d_pubkey a) -> tracked st' (d_pubkey a) -> exists b, bc_ok b /\
     bc_all (fun a0 => d_pubkey a0 = d_pubkey a) b /\
     (forall k, version_at st (d_pubkey a) k = bc_get b k) /\
     (forall k, version_at st' (d_pubkey a) k = bc_get (bc_update b a (effective st a c)).1 k) /\
     r = (bc_update b a (effective st a c)).2) /\
  (tracked st (d_pubkey a) -> ~ tracked st' (d_pubkey a) ->
     r = true /\ effective st a c = Finalized /\
     exists prev, version_at st (d_pubkey a) Finalized = Some prev /\ drops F Finalized prev a = true) /\
  (~ tracked st (d_pubkey a) -> r = fl_sat F a /\
     (fl_sat F a = true -> forall k, version_at st' (d_pubkey a) k = bc_get (bc_new a c) k) /\
     (fl_sat F a = false -> st' = st)).
Proof.
  intros Hok H. pose proof (update_ok _ _ _ _ _ _ Hok H) as Hok'. apply update_account_inv in H; [|done].
  unfold tracked.
  destruct H as [Hi Hs|sl' cx Hi Hs Hadd|i b sl' c' b' upd ow' Hi Hb Hadd Hu Hud Hud0|i b sl' c' b' prev ow' Hi Hb Hadd Hu Hprev Hud]; simpl.
  - rewrite Hi. split; [by intros [? ?]|]. split; [by intros [? ?]|]. intros _. split_and!; [done|congruence|done].
  - rewrite Hi. split; [by intros [? ?]|]. split; [by intros [? ?]|]. intros _. split_and!; [done| |congruence].
    intros _ k. unfold version_at. simpl. rewrite lookup_insert. simpl. rewrite lookup_app_r by lia.
    by rewrite Nat.sub_diag.
  - pose proof (effective_add _ _ _ _ _ _ Hadd) as ->.
    assert (i < length (st_accounts st))%nat by (by eapply so_bound).
    split; [|split].
    + intros _ _. exists b. split; [exact (so_bc _ Hok _ _ Hb)|]. split; [apply (so_pk _ Hok _ _ _ Hi Hb)|].
      split; [intros k; by apply version_at_entry with i|]. split.
      * intros k. rewrite Hu. apply (version_at_entry _ _ i); simpl; [done|]. by rewrite list_lookup_insert.
      * by rewrite Hu.
    + intros _ Hn. rewrite Hi in Hn. by destruct Hn.
    + intros Hn. rewrite Hi in Hn. by destruct Hn.
  - pose proof (effective_add _ _ _ _ _ _ Hadd) as ->.
    destruct (update_owner_delete_spec F (st_owners st) prev a i (effective st a c)) as (ow2 & del2 & H2 & Hdel & _).
    { exact (entry_pk _ _ _ _ _ _ Hok Hi Hb Hprev). }
    rewrite Hud in H2. injection H2 as <- <-. assert (effective st a c = Finalized) as He by naive_solver.
    split; [|split].
    + intros _ Hn. rewrite lookup_delete in Hn. by destruct Hn.
    + intros _ _. split; [done|]. split; [done|]. exists prev.
      rewrite (version_at_entry _ _ _ _ _ Hi Hb). rewrite He in Hprev. split; [done|].
      apply drops_true. naive_solver.
    + intros Hn. rewrite Hi in Hn. by destruct Hn.
Qed.
Lemma update_mono F st a c st' r pk k x : st_ok st -> update_account F st a c = Done (st', r) ->
  tracked st' pk -> version_at st pk k = Some x -> exists x', version_at st' pk k = Some x' /\ version_le x x'.
Proof.
  intros Hok H Ht' Hx. destruct (decide (pk = d_pubkey a)) as [->|Hne].
  - destruct (update_self F st a c st' r Hok H) as (H1 & _).
    destruct H1 as (b & Hbc & _ & Hv & Hv' & _); [|done|].
    { apply version_at_inv in Hx as (i & ? & Hi & _). by exists i. }
    rewrite Hv'. rewrite Hv in Hx. apply (bc_get_mono b (AUpdate a (effective st a c)) k x Hbc Hx).
  - rewrite (update_other F st a c st' r) by done. eauto using version_le_refl.
Qed.

(** ** Slot announcements *)
Lemma prom_after_drop F b s c b' rep : prom_after F b s c = (b', true, rep) ->
  b' = bc_empty /\ exists a prev, (bc_promote b s c).2 = Some (a, Some prev) /\ rep = Some a /\ drops F c prev a = true.
Proof.
  unfold prom_after. destruct (bc_promote b s c) as [b2 [[a [prev|]]|]]; try (intros; simplify_eq; done).
  destruct (drops F c prev a) eqn:Hd; intros; simplify_eq. eauto 10.
Qed.
Lemma prom_after_keep F b s c b' rep : prom_after F b s c = (b', false, rep) ->
  b' = (bc_promote b s c).1 /\ rep = (fst <$> (bc_promote b s c).2).
Proof.
  unfold prom_after. destruct (bc_promote b s c) as [b2 [[a [prev|]]|]]; try (intros; simplify_eq; done).
  destruct (drops F c prev a); intros; simplify_eq. done.
Qed.
(** The account at index [i] after processing. *)
Lemma slot_version F st si c wa st' pk i b : st_ok st -> slot_effect F st si c wa st' ->
  st_index st !! pk = Some i -> st_accounts st !! i = Some b ->
  match wa !! i with
  | None => st_index st' !! pk = Some i /\ st_accounts st' !! i = Some b
  | Some s => match prom_after F b s c with
              | (b', del, _) => st_index st' !! pk = (if del then None else Some i) /\ st_accounts st' !! i = Some b'
              end
  end.
Proof.
  intros Hok [_ Hlen Hsame Hidx Hnone Hent Hown] Hi Hb. destruct (wa !! i) as [s|] eqn:Hw.
  - destruct (prom_after F b s c) as [[b' del] rep] eqn:Hp. destruct (Hent _ _ _ _ _ _ Hw Hb Hp) as (H1 & H2 & _).
    split; [by apply H2|done].
  - split; [by apply Hidx|]. by rewrite Hsame.
Qed.
(** Reading an account after a slot announcement: untouched, promoted or dropped. *)
Lemma slot_view F st si c st' out pk : st_ok st -> process_slot F st si c = Done (st', out) ->
  tracked st pk -> exists i b wa sl, st_index st !! pk = Some i /\ st_accounts st !! i = Some b /\ bc_ok b /\
    slot_phase (st_slots st) si c = Some (sl, wa) /\ st_slots st' = sl /\
    (forall k, version_at st pk k = bc_get b k) /\
    ((wa !! i = None /\ tracked st' pk /\ forall k, version_at st' pk k = bc_get b k) \/
     (exists s, wa !! i = Some s /\ tracked st' pk /\ forall k, version_at st' pk k = bc_get (bc_promote b s c).1 k) \/
     (exists s a prev, wa !! i = Some s /\ ~ tracked st' pk /\ (bc_promote b s c).2 = Some (a, Some prev) /\
        c = Finalized /\ drops F c prev a = true /\ a ∈ out)).
Proof.
  intros Hok H [i Hi]. destruct (so_entry _ _ _ Hok Hi) as (b & Hb & Hbc & Hall & Hne).
  destruct (process_slot_spec F st si c Hok) as (st1 & sl & wa & H1 & Hph & Hsl & Hse).
  rewrite H1 in H. injection H as <- <-. exists i, b, wa, sl. split_and!; try done.
  { intros k. by apply version_at_entry with i. }
  pose proof (slot_version F st si c wa st1 pk i b Hok Hse Hi Hb) as Hv. destruct (wa !! i) as [s|] eqn:Hw.
  - destruct (prom_after F b s c) as [[b' del] rep] eqn:Hp. destruct Hv as [Hv1 Hv2]. destruct del.
    + right. right. destruct (prom_after_drop _ _ _ _ _ _ Hp) as (-> & a & prev & Hr & -> & Hd).
      exists s, a, prev. split; [done|]. split; [intros [? ?]; congruence|]. split_and!; try done.
      { by apply drops_true in Hd as [? _]. }
      unfold reports. apply elem_of_list_omap. exists (i, s). split; [by apply elem_of_map_to_list|].
      rewrite Hb. simpl. by rewrite Hp.
    + right. left. destruct (prom_after_keep _ _ _ _ _ _ Hp) as [-> _]. exists s. split; [done|].
      split; [by exists i|]. intros k. by apply version_at_entry with i.
  - left. destruct Hv as [Hv1 Hv2]. split; [done|]. split; [by exists i|]. intros k. by apply version_at_entry with i.
Qed.
Lemma slot_untracked F st si c st' out pk : st_ok st -> process_slot F st si c = Done (st', out) ->
  ~ tracked st pk -> ~ tracked st' pk.
Proof.
  intros Hok H Hn. destruct (process_slot_spec F st si c Hok) as (st1 & sl & wa & H1 & Hph & Hsl & Hse).
  rewrite H1 in H. injection H as <- <-. intros [i Hi]. destruct (st_index st !! pk) eqn:E; [apply Hn; by exists n|].
  rewrite (se_none _ _ _ _ _ _ Hse _ E) in Hi. done.
Qed.
Lemma slot_mono F st si c st' out pk k x : st_ok st -> process_slot F st si c = Done (st', out) ->
  tracked st' pk -> version_at st pk k = Some x -> exists x', version_at st' pk k = Some x' /\ version_le x x'.
Proof.
  intros Hok H Ht' Hx. assert (tracked st pk) as Ht by (apply version_at_inv in Hx as (i & ? & Hi & _); by exists i).
  destruct (slot_view F st si c st' out pk Hok H Ht) as (i & b & wa & sl & _ & _ & Hbc & _ & _ & Hv & Hcase).
  rewrite Hv in Hx. destruct Hcase as [(_ & _ & Hv')|[(s & _ & _ & Hv')|(s & a & prev & _ & Hn & _)]].
  - rewrite Hv'. eauto using version_le_refl.
  - rewrite Hv'. apply (bc_get_mono b (APromote s c) k x Hbc Hx).
  - done.
Qed.

(** ** Program queries *)
Lemma same_account_refl E x : same_account E x x.
Proof. done. Qed.
Lemma filtered_sound E b c fl a' : bc_get_filtered E b c fl = Done (Some a') ->
  exists a, bc_get b c = Some a /\ same_account E a' a /\ meets E (Some fl) a.
Proof.
  unfold bc_get_filtered. destruct (bc_get b c) as [a|] eqn:Hg; [|done]. destruct (forallb _ fl); [|done].
  assert (forall d, all_r (fun f => allows E f d) fl = Done true -> plain E a d -> meets E (Some fl) a) as Hmeets.
  { intros d Hall Hd l0 x [= <-] Hx. exists d. split; [done|]. apply allows_true. by apply (proj1 (all_r_true _ _) Hall). }
  assert (forall (d : bytes) (r : acct) o, (o ← all_r (fun f => allows E f d) fl; Done (if o : bool then Some r else None)) = Done (Some o) ->
            all_r (fun f => allows E f d) fl = Done true /\ o = r) as Hall.
  { intros d r o. destruct (all_r _ fl) as [[]|]; simpl; [|done|done]. by intros [= ->]. }
  destruct fl as [|f fl].
  { intros [= ->]. exists a'. split; [done|]. split; [done|]. intros ? ? [= <-] Hx. by apply elem_of_nil in Hx. }
  destruct (d_data a) as [d0|b0 n0|b0 n0] eqn:Hda.
  - intros H. apply Hall in H as [H ->]. exists a. split_and!; try done. eapply Hmeets; [done|]. unfold plain. by rewrite Hda.
  - destruct (data_bytes E (DLz4 b0 n0)) as [d|] eqn:Hd; [|done]. intros H. apply (Hall d) in H as [H ->].
    exists a. split; [done|]. split.
    + unfold same_account. simpl. rewrite Hda. by rewrite Hd.
    + eapply Hmeets; [done|]. unfold plain. by rewrite Hda.
  - destruct (data_bytes E (DZstd b0 n0)) as [d|] eqn:Hd; [|done]. intros H. apply (Hall d) in H as [H ->].
    exists a. split; [done|]. split.
    + unfold same_account. simpl. rewrite Hda. by rewrite Hd.
    + eapply Hmeets; [done|]. unfold plain. by rewrite Hda.
Qed.
Lemma gpa_entry_sound E b c p fl l a' : gpa_entry E b c p fl = Done l -> a' ∈ l ->
  exists a, l = [a'] /\ bc_get b c = Some a /\ same_account E a' a /\ d_owner a = p /\ meets E fl a /\ (fl <> None -> alive a).
Proof.
  unfold gpa_entry. destruct fl as [fl|].
  - destruct (bc_get_filtered E b c fl) as [[x|]|] eqn:Hf; [| |done].
    2:{ intros [= <-] H. by apply elem_of_nil in H. }
    destruct (filtered_sound _ _ _ _ _ Hf) as (a & Hg & Hs & Hm).
    change (Done (if (0 <? d_lamports x) && bool_decide (d_owner x = p) then [x] else []) = Done l -> a' ∈ l ->
      exists a0, l = [a'] /\ bc_get b c = Some a0 /\ same_account E a' a0 /\ d_owner a0 = p /\ meets E (Some fl) a0 /\ (Some fl <> None -> alive a0)).
    intros [= <-] Hin. destruct (0 <? d_lamports x) eqn:Hl; simpl in *; [|by apply elem_of_nil in Hin].
    case_bool_decide as Ho; [|by apply elem_of_nil in Hin]. apply elem_of_list_singleton in Hin as ->.
    exists a. destruct Hs as (H1 & Hlam & Hown & H4). split_and!; try done; try congruence.
    intros _. unfold alive. apply N.ltb_lt in Hl. by rewrite <- Hlam.
  - destruct (bc_get b c) as [a|] eqn:Hg.
    2:{ intros [= <-] H. by apply elem_of_nil in H. }
    case_bool_decide as Ho; intros [= <-] Hin; [|by apply elem_of_nil in Hin].
    apply elem_of_list_singleton in Hin as ->. exists a. split_and!; try done.
Qed.
Lemma gpa_entry_complete E b c p fl l a : gpa_entry E b c p fl = Done l -> bc_get b c = Some a ->
  d_owner a = p -> meets E fl a -> honest E a -> (fl <> None -> alive a) ->
  exists a', l = [a'] /\ same_account E a' a.
Proof.
  intros Hl Hg Ho Hm (d & Hd & Hlen) Hal. unfold gpa_entry in Hl. destruct fl as [fl|].
  - specialize (Hal ltac:(done)).
    (* all conditions decode, as they hold *)
    assert (Forall (decodable_cond E) fl) as Hdec.
    { apply Forall_forall. intros x Hx. destruct (Hm _ _ eq_refl Hx) as (d' & _ & Hh).
      destruct x as [n|m]; simpl; [done|]. destruct Hh as (pat & ? & ? & Hp & _). eauto. }
    destruct (filtered_read E b c fl a d Hdec Hg Hd Hlen) as (r & Hr & Hiff & Hsame).
    rewrite Hr in Hl. simpl in Hl. assert (is_Some r) as [a' ->].
    { apply Hiff. intros x Hx. destruct (Hm _ _ eq_refl Hx) as (d' & Hd' & Hh). unfold plain in *. congruence. }
    destruct (Hsame a' eq_refl) as [Hs _]. exists a'. split; [|done].
    destruct Hs as (_ & Hlam & Hown & _). assert (0 <? d_lamports a' = true) as Hz by (apply N.ltb_lt; rewrite Hlam; done).
    rewrite Hz in Hl. rewrite bool_decide_true in Hl by congruence. simpl in Hl. by injection Hl as <-.
  - rewrite Hg in Hl. rewrite bool_decide_true in Hl by done. injection Hl as <-. exists a. split; [done|]. unfold same_account. done.
Qed.
Lemma gpa_loop_inv E accs c p fl idx l : gpa_loop E accs c p fl idx = Done l ->
  (forall a', a' ∈ l <-> exists i b l', i ∈ idx /\ accs !! i = Some b /\ gpa_entry E b c p fl = Done l' /\ a' ∈ l') /\
  (forall i, i ∈ idx -> exists b l', accs !! i = Some b /\ gpa_entry E b c p fl = Done l').
Proof.
  revert l. induction idx as [|i idx IH]; intros l; simpl.
  - intros [= <-]. split; [|intros i Hi; by apply elem_of_nil in Hi].
    intros a'. split; [intros H; by apply elem_of_nil in H|]. intros (i & ? & ? & Hi & _). by apply elem_of_nil in Hi.
  - destruct (accs !! i) as [b|] eqn:Hb; simpl; [|done].
    destruct (gpa_entry E b c p fl) as [l1|] eqn:Hl1; simpl; [|done].
    destruct (gpa_loop E accs c p fl idx) as [ls|] eqn:Hls; simpl; [|done]. intros [= <-].
    destruct (IH ls eq_refl) as [IH1 IH2]. split.
    + intros a'. rewrite elem_of_app, IH1. split.
      * intros [H|(j & bj & lj & Hj & ?)]; [exists i, b, l1; split; [left|done]|]. exists j, bj, lj. split; [by right|done].
      * intros (j & bj & lj & [->|Hj]%elem_of_cons & Hbj & Hlj & Hin).
        -- left. congruence.
        -- right. eauto 10.
    + intros j [->|Hj]%elem_of_cons; [eauto|]. auto.
Qed.
Lemma gpa_inv E F st p fl c l : get_program_accounts E F st p fl c = Done (ROk l) ->
  fl_contains F (AFilter [] (Some p) fl) = true /\
  (forall a', a' ∈ l <-> exists i b l', i ∈ own (st_owners st) p /\ st_accounts st !! i = Some b /\
       gpa_entry E b c p fl = Done l' /\ a' ∈ l') /\
  (forall i, i ∈ own (st_owners st) p -> exists b l', st_accounts st !! i = Some b /\ gpa_entry E b c p fl = Done l').
Proof.
  unfold get_program_accounts. destruct (fl_contains _ _); [|done]. unfold own.
  destruct (st_owners st !! p) as [s|]; simpl.
  - destruct (gpa_loop _ _ _ _ _ _) as [l0|] eqn:Hl; simpl; [|done]. intros [= <-]. split; [done|].
    destruct (gpa_loop_inv _ _ _ _ _ _ _ Hl) as [H1 H2]. setoid_rewrite elem_of_elements in H1.
    setoid_rewrite elem_of_elements in H2. done.
  - intros [= <-]. split; [done|]. split; [|set_solver]. intros a'.
    split; [intros H; by apply elem_of_nil in H|]. intros (i & ? & ? & Hi & _). set_solver.
Qed.
Lemma entry_index st i b c a : st_ok st -> st_accounts st !! i = Some b -> bc_get b c = Some a ->
  st_index st !! d_pubkey a = Some i.
Proof.
  intros Hok Hb Hg. destruct (decide (map_Exists (fun _ j => j = i) (st_index st))) as [(pk & ? & Hpk & ->)|Hno].
  - destruct (so_pk _ Hok _ _ _ Hpk Hb) as [Hall _]. by rewrite (bc_pk_get pk b c a (so_bc _ Hok _ _ Hb) Hall Hg).
  - exfalso. assert (b = bc_empty) as ->.
    { eapply so_orphan; [exact Hok|exact Hb|]. intros pk Hpk. apply Hno. exists pk, i. done. }
    by destruct c.
Qed.
Lemma gpa_sound E F st p fl c l a' : st_ok st -> get_program_accounts E F st p fl c = Done (ROk l) -> a' ∈ l ->
  exists a, version_at st (d_pubkey a') c = Some a /\ same_account E a' a /\ d_owner a = p /\ meets E fl a /\ (fl <> None -> alive a).
Proof.
  intros Hok H Hin. apply gpa_inv in H as (_ & H & _). apply H in Hin as (i & b & l' & Hi & Hb & Hl' & Hin).
  destruct (gpa_entry_sound _ _ _ _ _ _ _ Hl' Hin) as (a & -> & Hg & Hs & Ho & Hm & Hal).
  exists a. split_and!; try done. destruct Hs as (Hpk & _). rewrite Hpk.
  rewrite (version_at_entry _ _ i b); [done| |done]. by eapply entry_index.
Qed.
Lemma gpa_loop_nodup E st c p fl idx l : st_ok st -> NoDup idx ->
  gpa_loop E (st_accounts st) c p fl idx = Done l -> NoDup (map d_pubkey l).
Proof.
  intros Hok. revert l. induction idx as [|i idx IH]; intros l Hnd; simpl; [by intros [= <-]; constructor|].
  apply NoDup_cons in Hnd as [Hni Hnd].
  destruct (st_accounts st !! i) as [b|] eqn:Hb; simpl; [|done].
  destruct (gpa_entry E b c p fl) as [l1|] eqn:Hl1; simpl; [|done].
  destruct (gpa_loop E (st_accounts st) c p fl idx) as [ls|] eqn:Hls; simpl; [|done]. intros [= <-].
  specialize (IH ls Hnd eq_refl). destruct l1 as [|a' l1]; [done|].
  destruct (gpa_entry_sound E b c p fl _ a' Hl1) as (a & He & Hg & Hs & _); [left|]. injection He as ->.
  simpl. constructor; [|done]. intros Hin. apply elem_of_list_fmap in Hin as (x & Hx & Hin).
  apply (proj1 (gpa_loop_inv _ _ _ _ _ _ _ Hls)) in Hin as (j & bj & lj & Hj & Hbj & Hlj & Hinj).
  destruct (gpa_entry_sound _ _ _ _ _ _ _ Hlj Hinj) as (y & _ & Hgy & Hsy & _).
  pose proof (entry_index st i b c a Hok Hb Hg) as H1. pose proof (entry_index st j bj c y Hok Hbj Hgy) as H2.
  destruct Hs as (Hpk & _), Hsy as (Hpky & _). rewrite <- Hpk, Hx, Hpky in H1. congruence.
Qed.
Lemma gpa_nodup E F st p fl c l : st_ok st -> get_program_accounts E F st p fl c = Done (ROk l) -> NoDup (map d_pubkey l).
Proof.
  intros Hok. unfold get_program_accounts. destruct (fl_contains _ _); [|done].
  destruct (st_owners st !! p) as [s|]; [|intros [= <-]; constructor].
  destruct (gpa_loop _ _ _ _ _ _) as [l0|] eqn:Hl; simpl; [|done]. intros [= <-].
  exact (gpa_loop_nodup E st c p fl _ _ Hok (NoDup_elements s) Hl).
Qed.
(** Program queries do not depend on accounts with other pubkeys. *)
Lemma gpa_frame E F F' st st' p fl c l l' a' : st_ok st -> st_ok st' ->
  get_program_accounts E F st p fl c = Done (ROk l) -> get_program_accounts E F' st' p fl c = Done (ROk l') ->
  (forall i b, st_index st !! d_pubkey a' = Some i -> st_accounts st !! i = Some b ->
     st_accounts st' !! i = Some b /\ (i ∈ own (st_owners st) p -> i ∈ own (st_owners st') p)) ->
  a' ∈ l -> a' ∈ l'.
Proof.
  intros Hok Hok' H H' Hfr Hin. apply gpa_inv in H as (_ & H & _). apply gpa_inv in H' as (_ & H' & _).
  apply H in Hin as (i & b & l1 & Hi & Hb & Hl1 & Hin). apply H'.
  destruct (gpa_entry_sound _ _ _ _ _ _ _ Hl1 Hin) as (a & _ & Hg & (Hpk & _) & _).
  assert (st_index st !! d_pubkey a' = Some i) as Hix. { rewrite Hpk. by eapply entry_index. }
  destruct (Hfr i b Hix Hb) as [Hb' Hown]. exists i, b, l1. auto.
Qed.
Lemma update_frame F st a c st' r : st_ok st -> update_account F st a c = Done (st', r) ->
  forall pk i b, pk <> d_pubkey a -> 
    (st_index st !! pk = Some i -> st_accounts st !! i = Some b ->
      st_index st' !! pk = Some i /\ st_accounts st' !! i = Some b /\
      forall p, i ∈ own (st_owners st) p <-> i ∈ own (st_owners st') p) /\
    (st_index st' !! pk = Some i -> st_accounts st' !! i = Some b ->
      st_index st !! pk = Some i /\ st_accounts st !! i = Some b /\
      forall p, i ∈ own (st_owners st) p <-> i ∈ own (st_owners st') p).
Proof.
  intros Hok H pk j bj Hne. apply update_account_inv in H; [|done].
  destruct H as [Hi Hs|sl' cx Hi Hs Hadd|i b sl' c' b' upd ow' Hi Hb Hadd Hu Hud Hud0|i b sl' c' b' prev ow' Hi Hb Hadd Hu Hprev Hud]; simpl.
  - done.
  - rewrite lookup_insert_ne by done.
    assert (st_index st !! pk = Some j -> (j < length (st_accounts st))%nat) as Hlt by apply so_bound, Hok.
    assert (forall p, st_index st !! pk = Some j -> (j ∈ own (st_owners st) p <-> j ∈ own (add_owner (st_owners st) (length (st_accounts st)) (d_owner a)) p)) as Hown.
    { intros p Hj. specialize (Hlt Hj). rewrite own_add. destruct (decide _) as [<-|]; [|done].
      rewrite elem_of_union, elem_of_singleton. split; [auto|]. intros [->|?]; [lia|done]. }
    split; intros Hj Hb.
    + split; [done|]. split; [by apply lookup_app_l_Some|]. auto.
    + split; [done|]. rewrite lookup_app_l in Hb by auto. auto.
  - assert (st_index st !! pk = Some j -> j <> i) as Hji. { intros Hj ->. apply Hne. by eapply so_inj. }
    assert (forall p j, j <> i -> j ∈ own ow' p <-> j ∈ own (st_owners st) p) as Hfr.
    { destruct upd; [|assert (ow' = st_owners st) as -> by (apply Hud0; by left); done].
      destruct (bc_get b c') as [prev|] eqn:Hprev; [|assert (ow' = st_owners st) as -> by (apply Hud0; by right); done].
      specialize (Hud prev eq_refl eq_refl).
      destruct (update_owner_delete_spec F (st_owners st) prev a i c') as (ow2 & del2 & H2 & _ & H3 & _).
      { exact (entry_pk _ _ _ _ _ _ Hok Hi Hb Hprev). }
      rewrite Hud in H2. by injection H2 as <- <-. }
    split; intros Hj Hb'.
    + split; [done|]. rewrite list_lookup_insert_ne by (apply not_eq_sym; auto). split; [done|]. intros p. symmetry. auto.
    + split; [done|]. rewrite list_lookup_insert_ne in Hb' by (apply not_eq_sym; auto). split; [done|]. intros p. symmetry. auto.
  - rewrite lookup_delete_ne by done.
    assert (st_index st !! pk = Some j -> j <> i) as Hji. { intros Hj ->. apply Hne. by eapply so_inj. }
    assert (forall p j, j <> i -> j ∈ own ow' p <-> j ∈ own (st_owners st) p) as Hfr.
    { destruct (update_owner_delete_spec F (st_owners st) prev a i c') as (ow2 & del2 & H2 & _ & H3 & _).
      { exact (entry_pk _ _ _ _ _ _ Hok Hi Hb Hprev). }
      rewrite Hud in H2. by injection H2 as <- <-. }
    split; intros Hj Hb'.
    + split; [done|]. rewrite list_lookup_insert_ne by (apply not_eq_sym; auto). split; [done|]. intros p. symmetry. auto.
    + split; [done|]. rewrite list_lookup_insert_ne in Hb' by (apply not_eq_sym; auto). split; [done|]. intros p. symmetry. auto.
Qed.
Lemma update_gpa_other E F0 F st a c st' r p fl k l l' a' : st_ok st -> update_account F0 st a c = Done (st', r) ->
  get_program_accounts E F st p fl k = Done (ROk l) -> get_program_accounts E F st' p fl k = Done (ROk l') ->
  d_pubkey a' <> d_pubkey a -> a' ∈ l <-> a' ∈ l'.
Proof.
  intros Hok H Hl Hl' Hne. pose proof (update_ok _ _ _ _ _ _ Hok H) as Hok'. split.
  - eapply (gpa_frame E F F st st'); try done. intros i b Hi Hb.
    destruct (update_frame F0 st a c st' r Hok H (d_pubkey a') i b Hne) as [H1 _]. destruct (H1 Hi Hb) as (_ & ? & Ho).
    split; [done|]. apply Ho.
  - eapply (gpa_frame E F F st' st); try done. intros i b Hi Hb.
    destruct (update_frame F0 st a c st' r Hok H (d_pubkey a') i b Hne) as [_ H1]. destruct (H1 Hi Hb) as (_ & ? & Ho).
    split; [done|]. apply Ho.
Qed.
