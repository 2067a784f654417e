(** A call of the account store that runs alone does what the sequential model says. *)
From Verif Require Import Base SMap DataModel FilterModel BincodeModel ByCommitModel ByCommitSpec StoreModel StoreSpec
  ConcModel ConcProofs ConcReads ConcQueryModel ConcQuerySpec ConcQueryProofs.

Lemma alone_fun F st pd t r : alone F st pd t r -> forall r', alone F st pd t r' -> r = r'.
Proof.
  induction 1 as [st o|st pd t st1 pd1 t1 r Hp Ha IH|st pd t Hp]; intros r' H'.
  - inversion H'; subst; [done|simpl in *; done..].
  - inversion H' as [|? ? ? ? ? ? ? Hp' Ha'|? ? ? Hp']; subst; [done| |congruence]. rewrite Hp in Hp'. injection Hp' as <- <- <-. by apply IH.
  - inversion H' as [|? ? ? ? ? ? ? Hp' Ha'|? ? ? Hp']; subst; [done|congruence|done].
Qed.
Lemma qalone_fun E F st q r : qalone E F st q r -> forall r', qalone E F st q r' -> r = r'.
Proof.
  induction 1 as [r|q q1 r Hp Ha IH|q Hp]; intros r' H'.
  - inversion H'; subst; [done|simpl in *; done..].
  - inversion H' as [|? ? ? Hp' Ha'|? Hp']; subst; [done| |congruence]. rewrite Hp in Hp'. injection Hp' as <-. by apply IH.
  - inversion H' as [|? ? ? Hp' Ha'|? Hp']; subst; [done|congruence|done].
Qed.
Lemma same_slots st : Store (st_index st) (st_owners st) (st_slots st) (st_accounts st) = st.
Proof. by destruct st. Qed.

Lemma solo_entry F st a c : alone F st ∅ (TEntry a c)
  (match st_index st !! d_pubkey a with
   | Some i => '(st', b) ← occupied F st a c i; Done (st', RUpdate b)
   | None => if fl_sat F a then
       Done (Store (<[d_pubkey a := length (st_accounts st)]> (st_index st)) (add_owner (st_owners st) (length (st_accounts st)) (d_owner a))
               (add_to_status (st_slots st) (d_slot a) (length (st_accounts st)) c).1 (st_accounts st ++ [bc_new a c]), RUpdate true)
       else Done (st, RUpdate false)
   end).
Proof.
  destruct (st_index st !! d_pubkey a) as [i|] eqn:Hi.
  - destruct (occupied F st a c i) as [[st' b]|] eqn:Ho; simpl.
    + eapply al_step; [simpl; rewrite lookup_empty, Hi, Ho; reflexivity|]. constructor.
    + apply al_panic. simpl. by rewrite lookup_empty, Hi, Ho.
  - destruct (fl_sat F a) eqn:Hs.
    + eapply al_step; [simpl; rewrite lookup_empty, Hi, Hs; reflexivity|].
      eapply al_step; [simpl; rewrite lookup_insert; reflexivity|]. eapply al_step; [simpl; rewrite lookup_insert; reflexivity|].
      eapply al_step; [simpl; rewrite lookup_insert; reflexivity|]. simpl. rewrite insert_insert, insert_insert, delete_insert by (by rewrite lookup_empty). constructor.
    + eapply al_step; [simpl; rewrite lookup_empty, Hi, Hs; reflexivity|]. constructor.
Qed.
Lemma solo_idx F st a c : alone F st ∅ (TIdx a c) ('(st', b) ← (let '(slots, c') := maybe_update_status st a c in
    match st_index st !! d_pubkey a with
    | Some i =>
        b ← unwrap (st_accounts st !! i);
        let prev := bc_get b c' in
        let '(b', updated) := bc_update b a c' in
        if updated : bool then
          match prev with
          | Some p =>
              '(ow, del) ← update_owner_delete F (st_owners st) p a i c';
              if del : bool
              then Done (Store (delete (d_pubkey a) (st_index st)) ow slots
                               (<[i := bc_empty]> (st_accounts st)), true)
              else Done (Store (st_index st) ow slots (<[i := b']> (st_accounts st)), true)
          | None => Done (Store (st_index st) (st_owners st) slots (<[i := b']> (st_accounts st)), true)
          end
        else Done (Store (st_index st) (st_owners st) slots (<[i := b']> (st_accounts st)), false)
    | None =>
        if fl_sat F a then
          let i := length (st_accounts st) in
          let ow := add_owner (st_owners st) i (d_owner a) in
          let '(slots', _) := add_to_status slots (d_slot a) i c' in
          Done (Store (<[d_pubkey a := i]> (st_index st)) ow slots' (st_accounts st ++ [bc_new a c']), true)
        else Done (Store (st_index st) (st_owners st) slots (st_accounts st), false)
    end); Done (st', RUpdate b)).
Proof.
  unfold maybe_update_status. destruct (st_index st !! d_pubkey a) as [i|] eqn:Hi.
  - destruct (add_to_status (st_slots st) (d_slot a) i c) as [sl c'] eqn:Hadd.
    eapply al_step; [simpl; rewrite lookup_empty, Hi; reflexivity|]. eapply al_step; [simpl; rewrite Hadd; reflexivity|].
    pose proof (solo_entry F (Store (st_index st) (st_owners st) sl (st_accounts st)) a c') as H. simpl in H. rewrite Hi in H. exact H.
  - eapply al_step; [simpl; rewrite lookup_empty, Hi; reflexivity|]. pose proof (solo_entry F st a c) as H. rewrite Hi in H.
    destruct (fl_sat F a); [|by rewrite same_slots]. by destruct (add_to_status _ _ _ _).
Qed.
Lemma solo_update F st a c : alone F st ∅ (TUpd a c) ('(st', b) ← update_account F st a c; Done (st', RUpdate b)).
Proof.
  unfold update_account. destruct (negb (is_deleted a) && negb (fl_sat F a)) eqn:Hc; simpl.
  - destruct (contains_key st (d_pubkey a)) eqn:Hk; simpl.
    + eapply al_step; [simpl; rewrite Hc, lookup_empty, Hk; reflexivity|]. apply solo_idx.
    + eapply al_step; [simpl; rewrite Hc, lookup_empty, Hk; reflexivity|]. constructor.
  - eapply al_step; [simpl; rewrite Hc; reflexivity|]. apply solo_idx.
Qed.
Lemma solo_prom F st c l out : alone F st ∅ (TProm c l out) ('(st', o) ← promote_all F st out l c; Done (st', RSlot o)).
Proof.
  revert st out. induction l as [|[i s] l IH]; intros st out; simpl.
  - eapply al_step; [reflexivity|]. constructor.
  - destruct (promote_one F st out i s c) as [[st1 out1]|] eqn:Hp; simpl.
    + eapply al_step; [simpl; rewrite Hp; reflexivity|]. apply IH.
    + apply al_panic. simpl. by rewrite Hp.
Qed.
Lemma solo_slot F st si c : alone F st ∅ (TSlot si c) ('(st', l) ← process_slot F st si c; Done (st', RSlot l)).
Proof.
  unfold process_slot. destruct (slot_phase (st_slots st) si c) as [[sl wa]|] eqn:Hp; simpl.
  - eapply al_step; [simpl; rewrite Hp; reflexivity|]. apply solo_prom.
  - apply al_panic. simpl. by rewrite Hp.
Qed.
Lemma solo_get F st pk c : alone F st ∅ (TGet pk c) (r ← get_account st pk c; Done (st, RGet r)).
Proof.
  unfold get_account. destruct (st_index st !! pk) as [i|] eqn:Hi.
  - eapply al_step; [simpl; rewrite lookup_empty, Hi; reflexivity|]. destruct (st_accounts st !! i) as [b|] eqn:Hb; simpl.
    + eapply al_step; [simpl; rewrite Hb; reflexivity|]. destruct (bc_get b c) as [a|]; [destruct (0 <? d_lamports a)|]; constructor.
    + apply al_panic. simpl. by rewrite Hb.
  - eapply al_step; [simpl; rewrite lookup_empty, Hi; reflexivity|]. constructor.
Qed.
Lemma solo_walk E F st p fl c todo out : qalone E F st (QWalk p fl c todo out) (l ← gpa_loop E (st_accounts st) c p fl todo; Done (ROk (out ++ l))).
Proof.
  revert out. induction todo as [|i todo IH]; intros out; simpl.
  - rewrite app_nil_r. eapply ql_step; [reflexivity|]. constructor.
  - destruct (st_accounts st !! i) as [b|] eqn:Hb; simpl; [|apply ql_panic; simpl; by rewrite Hb].
    destruct (gpa_entry E b c p fl) as [l|] eqn:Hl; simpl; [|apply ql_panic; simpl; rewrite Hb; simpl; by rewrite Hl].
    eapply ql_step; [simpl; rewrite Hb; simpl; rewrite Hl; reflexivity|]. pose proof (IH (out ++ l)) as H. destruct (gpa_loop _ _ _ _ _ todo); simpl in *; [|done]. by rewrite <- app_assoc in H.
Qed.
Lemma solo_gpa E F st p fl c : qalone E F st (QGpa p fl c) (get_program_accounts E F st p fl c).
Proof.
  unfold get_program_accounts. destruct (fl_contains F (AFilter [] (Some p) fl)) eqn:Hc.
  - eapply ql_step; [simpl; rewrite Hc; reflexivity|]. destruct (st_owners st !! p) as [s|] eqn:Ho.
    + eapply ql_step; [simpl; rewrite Ho; reflexivity|]. eapply ql_step; [simpl; rewrite Ho; reflexivity|]. exact (solo_walk E F st p fl c (elements s) []).
    + eapply ql_step; [simpl; rewrite Ho; reflexivity|]. constructor.
  - eapply ql_step; [simpl; rewrite Hc; reflexivity|]. constructor.
Qed.

(** ** A history is an execution *)
Lemma alone_reach E F st pd t r : alone F st pd t r -> forall st' o thr j q, r = Done (st', o) -> thr !! j = Some t ->
  qreach E (QS (CS st pd thr) q) (QS (CS st' ∅ (<[j := TDone o]> thr)) q).
Proof.
  induction 1 as [st o|st pd t st1 pd1 t1 r Hp Ha IH|st pd t Hp]; intros st' o' thr j q He Hj; [|subst r|done].
  - injection He as <- <-. rewrite list_insert_id by done. constructor.
  - eapply qreach_step.
    { apply (qother E (QS (CS st pd thr) q) F j). eapply cs_done; [exact Hj|exact Hp]. }
    simpl. pose proof (IH st' o' (<[j := t1]> thr) j q eq_refl) as H. rewrite list_insert_insert in H. apply H. apply list_lookup_insert. by eapply lookup_lt_Some.
Qed.
Lemma qalone_reach E F cs q r : qalone E F (cs_st cs) q r -> forall r' qs j, r = Done r' -> qs !! j = Some q ->
  qreach E (QS cs qs) (QS cs (<[j := QEnd r']> qs)).
Proof.
  induction 1 as [r|q q1 r Hp Ha IH|q Hp]; intros r' qs j He Hj; [|subst r|done].
  - injection He as <-. rewrite list_insert_id by done. constructor.
  - eapply qreach_step.
    { exact (qs_query E (QS cs qs) F j q (Done q1) Hj Hp). }
    simpl. pose proof (IH r' (<[j := q1]> qs) j eq_refl) as H. rewrite list_insert_insert in H. apply H. apply list_lookup_insert. by eapply lookup_lt_Some.
Qed.
Lemma call_reach E F st t st' o thr q : match t with TUpd _ _ | TSlot _ _ | TGet _ _ => True | _ => False end -> alone F st ∅ t (Done (st', o)) ->
  qreach E (QS (CS st ∅ thr) q) (QS (CS st' ∅ (thr ++ [TDone o])) q).
Proof.
  intros Ht Ha. eapply qreach_step.
  { apply (qother E (QS (CS st ∅ thr) q) F (length thr)). apply (cs_call (CS st ∅ thr) F (length thr) t); [by apply lookup_ge_None_2|done|done]. }
  simpl. assert ((thr ++ [t]) !! length thr = Some t) as Hj by (by apply list_lookup_middle).
  pose proof (alone_reach E F st ∅ t _ Ha st' o (thr ++ [t]) (length thr) q eq_refl Hj) as H. by rewrite insert_app_r_alt, Nat.sub_diag in H by done.
Qed.
Lemma query_reach E F cs p fl c r q : get_program_accounts E F (cs_st cs) p fl c = Done r -> qreach E (QS cs q) (QS cs (q ++ [QEnd r])).
Proof.
  intros Hr. pose proof (solo_gpa E F (cs_st cs) p fl c) as Ha. rewrite Hr in Ha. eapply qreach_step; [exact (qs_call E (QS cs q) p fl c)|]. simpl.
  assert ((q ++ [QGpa p fl c]) !! length q = Some (QGpa p fl c)) as Hj by (by apply list_lookup_middle).
  pose proof (qalone_reach E F cs _ _ Ha r (q ++ [QGpa p fl c]) (length q) eq_refl Hj) as H. by rewrite insert_app_r_alt, Nat.sub_diag in H by done.
Qed.
Lemma load_reach E F st l st' thr q : load_accounts F st l = Done st' -> exists outs, qreach E (QS (CS st ∅ thr) q) (QS (CS st' ∅ (thr ++ (TDone <$> outs))) q).
Proof.
  revert st thr. induction l as [|a l IH]; intros st thr; simpl.
  - intros [= <-]. exists []. rewrite app_nil_r. constructor.
  - unfold init_account. destruct (update_account F st a Finalized) as [[st1 b]|] eqn:Hu; simpl; [|done]. intros Hl.
    pose proof (solo_update F st a Finalized) as Ha. rewrite Hu in Ha. simpl in Ha. destruct (IH st1 (thr ++ [TDone (RUpdate b)]) Hl) as [outs Ho]. exists (RUpdate b :: outs).
    eapply qreach_trans; [by apply (call_reach E F st (TUpd a Finalized))|]. simpl. by rewrite <- app_assoc in Ho.
Qed.
Lemma history_reach E h st st' thr q : run E st h = Done st' -> exists outs answers, qreach E (QS (CS st ∅ thr) q) (QS (CS st' ∅ (thr ++ (TDone <$> outs))) (q ++ (QEnd <$> answers))).
Proof.
  revert st thr q. induction h as [|[F o] h IH]; intros st thr q; cbn [run].
  - intros [= <-]. exists [], []. rewrite !app_nil_r. constructor.
  - destruct (step E F st o) as [[st1 out]|] eqn:Hs; [|done]. cbn [mbind res_bind]. intros Hr.
    assert (exists outs answers, qreach E (QS (CS st ∅ thr) q) (QS (CS st1 ∅ (thr ++ (TDone <$> outs))) (q ++ (QEnd <$> answers)))) as (o1 & a1 & H1).
    { destruct o as [a c|a|pk c|p fl c|si c|p|p b]; cbn [step] in Hs.
      - pose proof (solo_update F st a c) as Ha. destruct (update_account F st a c) as [[st2 b]|]; [|done]. injection Hs as -> <-. exists [RUpdate b], []. rewrite app_nil_r. by apply (call_reach E F st (TUpd a c)).
      - unfold init_account in Hs. pose proof (solo_update F st a Finalized) as Ha. destruct (update_account F st a Finalized) as [[st2 b]|]; [|done]. injection Hs as -> <-. exists [RUpdate b], [].
        rewrite app_nil_r. by apply (call_reach E F st (TUpd a Finalized)).
      - pose proof (solo_get F st pk c) as Ha. destruct (get_account st pk c) as [r|]; [|done]. injection Hs as -> <-. exists [RGet r], []. rewrite app_nil_r. by apply (call_reach E F st1 (TGet pk c)).
      - destruct (get_program_accounts E F st p fl c) as [r|] eqn:Hg; [|done]. injection Hs as -> <-. exists [], [r]. rewrite app_nil_r. by eapply (query_reach E F (CS st1 ∅ thr)).
      - pose proof (solo_slot F st si c) as Ha. destruct (process_slot F st si c) as [[st2 b]|]; [|done]. injection Hs as -> <-. exists [RSlot b], []. rewrite app_nil_r. by apply (call_reach E F st (TSlot si c)).
      - unfold create_snapshot in Hs. destruct (get_program_accounts E F st p None Finalized) as [r|] eqn:Hg; [|done]. injection Hs as -> <-. exists [], [r]. rewrite app_nil_r. by eapply (query_reach E F (CS st1 ∅ thr)).
      - unfold load_from_snapshot in Hs. destruct (unbincode_accounts b) as [l|].
        + destruct (load_accounts F st l) as [st2|] eqn:Hl; [|done]. injection Hs as -> <-. destruct (load_reach E F st l st1 thr q Hl) as [outs Ho]. exists outs, []. by rewrite app_nil_r.
        + injection Hs as -> <-. exists [], []. rewrite !app_nil_r. constructor. }
    destruct (IH st1 (thr ++ (TDone <$> o1)) (q ++ (QEnd <$> a1)) Hr) as (o2 & a2 & H2). exists (o1 ++ o2), (a1 ++ a2). rewrite !fmap_app, !app_assoc. by eapply qreach_trans.
Qed.
