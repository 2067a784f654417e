(** A call of the token store that runs alone does what the sequential model says. *)
From Verif Require Import Base SMap DataModel BincodeModel FilterModel StoreModel TokenModel SplModel TokenUtilsModel TokenPendModel TokenStoreModel TokenStoreSpec TokenConcModel TokenConcSpec
  TokenConcProofs.
#[local] Arguments le : simpl never.
#[local] Arguments unle : simpl never.
#[local] Opaque to_bytes from_bytes peek_pubkey.

Section solo.
Context (E : ext) (X : lz4x).
Lemma runs_bind {A} ts t (m : res A) (f : A -> tstore * tthr) (k : A -> res (tstore * tout)) :
  tpiece E X ts t = Some (x ← m; Done (f x)) -> (forall x, m = Done x -> runs E X (f x).1 (f x).2 (k x)) -> runs E X ts t (x ← m; k x).
Proof.
  intros Hp Hk. destruct m as [x|]; cbn [mbind res_bind] in *; [|by apply runs_panic]. specialize (Hk x eq_refl). destruct (f x) as [ts' t'] eqn:Hf. rewrite ?Hf in *. by eapply runs_step.
Qed.
Lemma runs_go ts t ts' t' r : tpiece E X ts t = Some (Done (ts', t')) -> runs E X ts' t' r -> runs E X ts t r.
Proof. apply runs_step. Qed.
Lemma bind_assoc {A B C} (m : res A) (f : A -> res B) (g : B -> res C) : (y ← (x ← m; f x); g y) = (x ← m; y ← f x; g y).
Proof. by destruct m. Qed.
Ltac go := eapply runs_go; [done|].

Lemma same_table ts : set_table ts (ts_by_mint ts) (ts_by_owner ts) (ts_table ts) = ts.
Proof. by destruct ts. Qed.
Lemma same_pend ts : set_pend ts (ts_pend ts) = ts.
Proof. by destruct ts. Qed.
#[local] Opaque set_table set_pend set_ix set_mints set_multi set_conf set_fin.
Lemma insert_step ts a ty p b : pd_insert (ts_pend ts) (d_pubkey a) ty (d_wv a) (d_slot a) = (p, b) -> runs E X ts (XIns a ty) (Done (set_pend ts p, OUpdate b)).
Proof. intros H. eapply runs_go; [|constructor]. cbn [tpiece]. by rewrite H. Qed.
Lemma solo_add ts a l r (k : tstore -> res (tstore * tout)) : (forall ts', runs E X ts' (XAdds l r) (k ts')) -> runs E X ts (XAdds (a :: l) r) (ts' ← add_finalized ts a; k ts').
Proof.
  intros Hk. destruct a as [t|m|m pk|pk].
  - cbn [add_finalized]. unfold add_token. rewrite bind_assoc. eapply runs_bind with (f := fun '((tb, i), added) => (set_table ts (ts_by_mint ts) (ts_by_owner ts) tb, if added : bool then XByMint t i l r else XAdds l r)).
    { simpl. f_equal. destruct (tb_save _ _) as [[[tb i] b]|]; done. }
    intros [[tb i] b] _. cbn [fst snd mbind res_bind]. destruct b; [|apply Hk]. go. go. apply Hk.
  - eapply runs_bind; [done|]. intros ts' _. apply Hk.
  - eapply runs_bind; [done|]. intros ts' _. apply Hk.
  - cbn [add_finalized]. destruct (ts_mint_ix ts !! pk) as [i|] eqn:Hi.
    + eapply runs_go. { cbn [tpiece]. by rewrite Hi. } go. go. apply Hk.
    + eapply runs_go. { cbn [tpiece]. by rewrite Hi. } eapply runs_go. { cbn [tpiece]. by rewrite Hi. } rewrite bind_assoc. unfold tb_delete.
      destruct (tb_index (ts_table ts) !! prefix4 pk) as [ixs|] eqn:Hk'.
      * eapply runs_go. { cbn [tpiece]. by rewrite Hk'. } rewrite bind_assoc.
        eapply runs_bind with (f := fun o => (set_table ts (ts_by_mint ts) (ts_by_owner ts) (Table (delete (prefix4 pk) (tb_index (ts_table ts)))
           (match o with Some i => <[i := to_bytes deleted_account]> (tb_accounts (ts_table ts)) | None => tb_accounts (ts_table ts) end)), XAdds l r)).
        { cbn [tpiece]. unfold tb_del_row. f_equal. rewrite bind_assoc. change (tb_accounts (ts_table (set_table ts (ts_by_mint ts) (ts_by_owner ts) (tb_del_key (ts_table ts) pk)))) with (tb_accounts (ts_table ts)).
          destruct (find_pk _ _ _) as [[i|]|]; done. }
        intros [i|] _; cbn [fst snd mbind res_bind]; apply Hk.
      * eapply runs_go. { cbn [tpiece]. by rewrite Hk'. } cbn [mbind res_bind]. rewrite same_table. apply Hk.
Qed.
Lemma solo_adds ts l r : runs E X ts (XAdds l r) (ts' ← add_all ts l; Done (ts', r)).
Proof.
  revert ts. induction l as [|a l IH]; intros ts; cbn [add_all]; [go; constructor|]. rewrite bind_assoc. apply solo_add. apply IH.
Qed.
Lemma solo_token ts a c :
  match is_token ts a with
  | Done true => forall r, runs E X ts (XType a c) r -> runs E X ts (XUpd a c) r
  | Done false => runs E X ts (XUpd a c) (Done (ts, upd_no c))
  | Panic => runs E X ts (XUpd a c) Panic
  end.
Proof.
  unfold is_token. destruct (bool_decide (is_Some (ts_mint_ix ts !! d_pubkey a))) eqn:H1; cbn [orb].
  { intros r Hr. eapply runs_go; [|exact Hr]. cbn [tpiece]. by rewrite H1. }
  assert (forall r, runs E X ts (XUpdMulti a c) r -> runs E X ts (XUpd a c) r) as Hm.
  { intros r Hr. eapply runs_go; [|exact Hr]. cbn [tpiece]. by rewrite H1. }
  destruct (bool_decide (is_Some (ts_multi ts !! d_pubkey a)) || (d_owner a =? spl_token_id) || (d_owner a =? spl_2022_id)) eqn:H2.
  { intros r Hr. apply Hm. eapply runs_go; [|exact Hr]. cbn [tpiece]. by rewrite H2. }
  assert (forall r, runs E X ts (XUpdTable a c) r -> runs E X ts (XUpd a c) r) as Ht.
  { intros r Hr. apply Hm. eapply runs_go; [|exact Hr]. cbn [tpiece]. by rewrite H2. }
  destruct (tb_contains (ts_table ts) (d_pubkey a)) as [[i|]|] eqn:H3; cbn [mbind res_bind].
  - intros r Hr. apply Ht. eapply runs_go; [|exact Hr]. cbn [tpiece]. by rewrite H3.
  - apply Ht. eapply runs_go; [|constructor]. cbn [tpiece]. by rewrite H3.
  - apply Ht, runs_panic. cbn [tpiece]. by rewrite H3.
Qed.
Lemma solo_update ts a c : runs E X ts (XUpd a (Some c)) ('(ts', b) ← ts_update E ts a c; Done (ts', OUpdate b)).
Proof.
  unfold ts_update. pose proof (solo_token ts a (Some c)) as Ht. destruct (is_token ts a) as [[]|]; cbn [mbind res_bind]; [|done|done]. apply Ht.
  destruct (account_type E a (ts_mint_ix ts) (ts_ctr ts)) as [[[[ty ix] ctr]|]|] eqn:Ha; cbn [mbind res_bind].
  - eapply runs_go. { cbn [tpiece]. by rewrite Ha. } destruct c; cbv zeta.
    + pose proof (insert_step (set_ix ts ix ctr) a ty) as H. destruct (pd_insert _ _ _ _ _) as [p b]. by apply (H p b).
    + pose proof (insert_step (set_ix ts ix ctr) a ty) as H. destruct (pd_insert _ _ _ _ _) as [p b]. by apply (H p b).
    + rewrite bind_assoc. apply solo_add. intros ts'. go. constructor.
  - eapply runs_go; [|constructor]. cbn [tpiece]. by rewrite Ha.
  - apply runs_panic. cbn [tpiece]. by rewrite Ha.
Qed.
Lemma solo_init ts a : runs E X ts (XUpd a None) (ts' ← ts_init E ts a; Done (ts', OInit)).
Proof.
  unfold ts_init. pose proof (solo_token ts a None) as Ht. destruct (is_token ts a) as [[]|]; cbn [mbind res_bind]; [|done|done]. apply Ht.
  destruct (account_type E a (ts_mint_ix ts) (ts_ctr ts)) as [[[[ty ix] ctr]|]|] eqn:Ha; cbn [mbind res_bind].
  - eapply runs_go. { cbn [tpiece]. by rewrite Ha. } apply solo_add. intros ts'. go. constructor.
  - eapply runs_go; [|constructor]. cbn [tpiece]. by rewrite Ha.
  - apply runs_panic. cbn [tpiece]. by rewrite Ha.
Qed.
Lemma solo_render ts q out adds (k : list acct -> res (tstore * tout)) : (forall l, runs E X ts (XAdds adds (OSlot (out ++ l))) (k l)) ->
  runs E X ts (XRender q out adds) (l ← to_accts (ts_mints ts) q; k l).
Proof.
  revert out k. induction q as [|[[a s] wv] q IH]; intros out k Hk; cbn [to_accts].
  - go. specialize (Hk []). by rewrite app_nil_r in Hk.
  - rewrite bind_assoc. eapply runs_bind; [done|]. intros o _. cbn [fst snd]. rewrite bind_assoc. apply IH. intros l. cbn [mbind res_bind].
    destruct o as [x|]; [|apply Hk]. rewrite <- app_assoc. apply Hk.
Qed.
Lemma solo_for ts si : runs E X ts (XFor si) ('(p, l) ← pd_for_slot (ts_pend ts) si (ts_mints ts); Done (set_pend ts p, OSlot l)).
Proof.
  unfold pd_for_slot. destruct (sm_get (si_slot si) (ts_pend ts)) as [b|] eqn:Hb.
  - eapply runs_go. { cbn [tpiece]. by rewrite Hb. } rewrite bind_assoc. apply solo_render. intros l. cbn [mbind res_bind]. rewrite same_pend. go. constructor.
  - eapply runs_go. { cbn [tpiece]. by rewrite Hb. } cbn [mbind res_bind]. go. constructor.
Qed.
Lemma solo_finalize ts ord si : runs E X ts (XFinalize ord si)
  (let '(p, m) := pd_finalize (ts_pend ts) (si_slot si) in let ts := set_pend ts p in let l := (fun x => x.2) <$> ord m in
   r ← to_accts (ts_mints ts) ((fun '((ty, wv), slot) => (ty, slot, wv)) <$> l); ts' ← add_all ts ((fun x => x.1.1) <$> l); Done (ts', OSlot r)).
Proof.
  destruct (pd_finalize (ts_pend ts) (si_slot si)) as [p m] eqn:Hf. eapply runs_go. { cbn [tpiece]. by rewrite Hf. } cbv zeta. apply solo_render. intros l. apply solo_adds.
Qed.
Lemma solo_slot ts ord si c : runs E X ts (XSlot ord si c) ('(ts', l) ← ts_slot ord ts si c; Done (ts', OSlot l)).
Proof.
  destruct c; cbn [ts_slot].
  - go. constructor.
  - destruct (ts_conf ts <? si_slot si) eqn:Hc; (eapply runs_go; [cbn [tpiece]; by rewrite Hc|]).
    + go. go. pose proof (solo_for (set_pend (set_conf ts (si_slot si)) (pd_slot_info (ts_pend ts) si)) si) as H. cbv zeta.
      change (ts_pend (set_conf ts (si_slot si))) with (ts_pend ts). destruct (pd_for_slot _ _ _) as [[p l]|]; done.
    + pose proof (solo_for ts si) as H. cbv zeta. destruct (pd_for_slot _ _ _) as [[p l]|]; done.
  - destruct (ts_fin ts <? si_slot si) eqn:Hc; (eapply runs_go; [cbn [tpiece]; by rewrite Hc|]); [go; go|].
    1: pose proof (solo_finalize (set_fin (set_pend ts (pd_slot_info (ts_pend ts) si)) (si_slot si)) ord si) as H.
    2: pose proof (solo_finalize ts ord si) as H.
    all: cbv zeta; cbv zeta in H; destruct (pd_finalize _ _) as [p m]; destruct (to_accts _ _) as [l|]; cbn [mbind res_bind] in *; [|done]; by destruct (add_all _ _).
Qed.
Lemma solo_getfin ts pk : runs E X ts (XGetFin pk) (o ← get_fin ts pk; Done (ts, OGet o)).
Proof.
  unfold get_fin. destruct (ts_multi ts !! pk) as [m|] eqn:Hm.
  { destruct (multisig_to_acct m pk (ts_fin ts) 0) as [a|] eqn:Ha; cbn [mbind res_bind].
    - eapply runs_go; [|constructor]. cbn [tpiece]. by rewrite Hm, Ha.
    - apply runs_panic. cbn [tpiece]. by rewrite Hm, Ha. }
  eapply runs_go. { cbn [tpiece]. by rewrite Hm. } destruct (ts_mint_ix ts !! pk) as [i|] eqn:Hi.
  { destruct (ts_mints ts !! i) as [m|] eqn:Hmm; cbn [unwrap mbind res_bind].
    - eapply runs_go; [|constructor]. cbn [tpiece]. by rewrite Hi, Hmm.
    - apply runs_panic. cbn [tpiece]. by rewrite Hi, Hmm. }
  eapply runs_go. { cbn [tpiece]. by rewrite Hi. } rewrite bind_assoc. eapply runs_bind; [done|]. intros [t|] _; cbn [fst snd]; [|constructor]. destruct (ta_deleted t); [constructor|].
  go. eapply runs_bind; [done|]. intros o _. constructor.
Qed.
Lemma solo_show ts ty slot : runs E X ts (XShow ty slot) (x ← tpa_to_acct ty slot 0 (ts_mints ts); Done (ts, OGet x)).
Proof. eapply runs_bind; [done|]. intros o _. constructor. Qed.
Lemma solo_get ts pk c : runs E X ts (XGet pk c) (r ← ts_get ts pk c; Done (ts, match r with ROk o => OGet o | RErr _ => OGet None end)).
Proof.
  assert (forall l : list (option (pacct * N)), head l <> None -> runs E X ts (match default None (head l) with Some ((ty, _), slot) => XShow ty slot | None => XGetFin pk end)
    (r ← (o ← unwrap (head l); match o with Some ((a, _), slot) => x ← tpa_to_acct a slot 0 (ts_mints ts); Done (ROk x) | None => x ← get_fin ts pk; Done (ROk x) end);
     Done (ts, match r with ROk o => OGet o | RErr _ => OGet None end))) as Hend.
  { intros l Hl. destruct l as [|o l]; [done|]. cbn [head unwrap default mbind res_bind]. simpl. destruct o as [[[ty wv] s]|]; cbn [mbind res_bind].
    - pose proof (solo_show ts ty s) as H. by destruct (tpa_to_acct _ _ _ _).
    - pose proof (solo_getfin ts pk) as H. by destruct (get_fin _ _). }
  assert (forall ret : list (option (pacct * N)), runs E X ts (XPendConf pk (ts_conf ts) ret)
    (r ← (l ← unwrap (conf_walk (S (length (ts_pend ts))) (ts_pend ts) [pk] (Some (ts_conf ts)) ret); o ← unwrap (head l);
      match o with Some ((a, _), slot) => x ← tpa_to_acct a slot 0 (ts_mints ts); Done (ROk x) | None => x ← get_fin ts pk; Done (ROk x) end);
     Done (ts, match r with ROk o => OGet o | RErr _ => OGet None end))) as Hpc.
  { intros ret. destruct (conf_walk (S (length (ts_pend ts))) (ts_pend ts) [pk] (Some (ts_conf ts)) ret) as [l|] eqn:Hw; cbn [unwrap mbind res_bind].
    - destruct l as [|o l]; cbn [head unwrap mbind res_bind]; [apply runs_panic; cbn [tpiece]; by rewrite Hw|]. eapply runs_go; [cbn [tpiece]; by rewrite Hw|]. by apply (Hend (o :: l)).
    - apply runs_panic. cbn [tpiece]. by rewrite Hw. }
  destruct c; cbn [ts_get].
  - go. unfold pd_get, pd_get_fuel. cbn [mbind res_bind length replicate]. rewrite proc_top_walk. destruct (proc_top [pk] (ts_conf ts) (reverse (ts_pend ts)) [None]) as [ret more] eqn:Ht.
    destruct more.
    + eapply runs_go; [|apply Hpc]. cbn [tpiece]. by rewrite Ht.
    + destruct ret as [|o ret]; cbn [head unwrap mbind res_bind]; [apply runs_panic; cbn [tpiece]; by rewrite Ht|]. eapply runs_go; [cbn [tpiece]; by rewrite Ht|]. by apply (Hend (o :: ret)).
  - go. go. apply Hpc.
  - go. pose proof (solo_getfin ts pk) as H. by destruct (get_fin _ _).
Qed.
Lemma solo_rows ts q out c (k : list acct -> res (tstore * tout)) : (forall l, runs E X ts (shown c (out ++ l)) (k l)) ->
  runs E X ts (XRows q out c (ts_fin ts)) (l ← tokens_to_accts ts q; k l).
Proof.
  revert out k. induction q as [|t q IH]; intros out k Hk; cbn [tokens_to_accts].
  - go. specialize (Hk []). by rewrite app_nil_r in Hk.
  - rewrite bind_assoc. eapply runs_bind; [done|]. intros o _. cbn [fst snd]. rewrite bind_assoc. apply IH. intros l. cbn [mbind res_bind].
    destruct o as [x|]; [|apply Hk]. rewrite <- app_assoc. apply Hk.
Qed.
Lemma solo_overlay ts l ps out : runs E X ts (XOverlay l ps out) (l' ← overlay (ts_mints ts) l ps; Done (ts, OGpa (ROk (out ++ l')))).
Proof.
  revert ps out. induction l as [|a l IH]; intros ps out.
  - cbn [overlay mbind res_bind]. destruct ps; go; constructor.
  - destruct ps as [|o ps]; cbn [overlay]; [cbn [mbind res_bind]; go; constructor|]. rewrite bind_assoc. eapply runs_bind; [done|]. intros x _. cbn [fst snd]. rewrite bind_assoc.
    specialize (IH ps (match x with Some y => out ++ [y] | None => out end)). destruct (overlay _ _ _) as [l'|]; cbn [mbind res_bind] in *; [|done].
    destruct x as [y|]; [|done]. by rewrite <- app_assoc in IH.
Qed.
Definition overlaid (ts : tstore) (c : commitment) (l : list acct) : res (result (list acct)) :=
  match c with
  | Finalized => Done (ROk l)
  | _ => ps ← pd_get (ts_pend ts) (d_pubkey <$> l) c (ts_conf ts); l' ← overlay (ts_mints ts) l ps; Done (ROk l')
  end.
Lemma solo_shown ts c l : runs E X ts (shown c l) (r ← overlaid ts c l; Done (ts, OGpa r)).
Proof.
  assert (forall ps, runs E X ts (XOverlay l ps []) (r ← (l' ← overlay (ts_mints ts) l ps; Done (ROk l')); Done (ts, OGpa r))) as Ho.
  { intros ps. rewrite bind_assoc. pose proof (solo_overlay ts l ps []) as H. by destruct (overlay _ _ _). }
  assert (forall ret : list (option (pacct * N)), runs E X ts (XOverConf l (ts_conf ts) ret) (r ← (ps ← unwrap (conf_walk (S (length (ts_pend ts))) (ts_pend ts) (d_pubkey <$> l) (Some (ts_conf ts)) ret);
     l' ← overlay (ts_mints ts) l ps; Done (ROk l')); Done (ts, OGpa r))) as Hc.
  { intros ret. destruct (conf_walk (S (length (ts_pend ts))) (ts_pend ts) (d_pubkey <$> l) (Some (ts_conf ts)) ret) as [ps|] eqn:Hw; cbn [unwrap mbind res_bind].
    - eapply runs_go; [cbn [tpiece]; by rewrite Hw|]. apply Ho.
    - apply runs_panic. cbn [tpiece]. by rewrite Hw. }
  destruct c; cbn [shown overlaid].
  - go. unfold pd_get, pd_get_fuel. cbn [mbind res_bind]. rewrite fmap_length, proc_top_walk.
    destruct (proc_top (d_pubkey <$> l) (ts_conf ts) (reverse (ts_pend ts)) (replicate (length l) None)) as [ret more] eqn:Ht. destruct more.
    + eapply runs_go; [|apply Hc]. cbn [tpiece]. by rewrite Ht.
    + eapply runs_go; [cbn [tpiece]; by rewrite Ht|]. apply Ho.
  - go. go. unfold pd_get, pd_get_fuel. cbn [mbind res_bind]. rewrite fmap_length. apply Hc.
  - constructor.
Qed.
Lemma gpa_overlaid ts p fl c : ts_gpa E ts p fl c = if negb (p =? spl_token_id) && negb (p =? spl_2022_id) then Done (RErr WrongIndex)
  else r ← gpa_fin E ts p fl; match r with RErr e => Done (RErr e) | ROk l => overlaid ts c l end.
Proof. unfold ts_gpa. destruct (_ && _); [done|]. destruct (gpa_fin _ _ _ _) as [[l|e]|]; by destruct c. Qed.
Lemma solo_gpa ts p fl c : runs E X ts (XGpa p fl c) (r ← ts_gpa E ts p fl c; Done (ts, OGpa r)).
Proof.
  rewrite gpa_overlaid. destruct (negb (p =? spl_token_id) && negb (p =? spl_2022_id)) eqn:Hp.
  { eapply runs_go; [cbn [tpiece]; by rewrite Hp|]. constructor. }
  destruct fl as [cs|]; [|eapply runs_go; [cbn [tpiece]; by rewrite Hp|]; constructor]. cbn [gpa_fin].
  destruct (owner_mint_filter p cs) as [[o|] m] eqn:Hom.
  - eapply runs_go; [cbn [tpiece]; by rewrite Hp, Hom|].
    assert (forall mi, runs E X ts (XGpaRows o mi (ts_by_owner ts !! prefix4 o) c (ts_fin ts))
      (r ← (r ← match ts_by_owner ts !! prefix4 o with
           | Some ixs => l ← tb_by_index (ts_table ts) (list_to_set ixs); r ← tokens_to_accts ts (filter (fun t => keep_token o mi t = true) l); Done (ROk r)
           | None => Done (ROk []) end; match r with RErr e => Done (RErr e) | ROk l => overlaid ts c l end); Done (ts, OGpa r))) as Hr.
    { intros mi. destruct (ts_by_owner ts !! prefix4 o) as [ixs|] eqn:Ho.
      - rewrite !bind_assoc. eapply runs_bind; [done|]. intros l _. cbn [fst snd]. rewrite !bind_assoc. apply solo_rows. intros l'. cbn [mbind res_bind]. apply solo_shown.
      - cbn [mbind res_bind]. go. apply solo_shown. }
    destruct m as [m|].
    + go. rewrite !bind_assoc. eapply runs_bind; [done|]. intros i _. cbn [fst snd mbind res_bind]. specialize (Hr (Some i)). by rewrite bind_assoc in Hr.
    + go. apply Hr.
  - destruct m as [m|].
    + eapply runs_go; [cbn [tpiece]; by rewrite Hp, Hom|]. destruct (ts_mint_ix ts !! m) as [i|] eqn:Hi; [destruct (ts_by_mint ts !! i) as [ixs|] eqn:Hb|].
      * rewrite !bind_assoc. eapply runs_bind; [cbn [tpiece]; by rewrite Hi, Hb|]. intros l _. cbn [fst snd]. rewrite !bind_assoc. apply solo_rows. intros l'. cbn [mbind res_bind]. apply solo_shown.
      * cbn [mbind res_bind]. eapply runs_go; [cbn [tpiece]; by rewrite Hi, Hb|]. apply solo_shown.
      * cbn [mbind res_bind]. eapply runs_go; [cbn [tpiece]; by rewrite Hi|]. apply solo_shown.
    + destruct (bool_decide (Datasize 82 ∈ cs)) eqn:Hd.
      * eapply runs_go; [cbn [tpiece]; by rewrite Hp, Hom, Hd|]. rewrite !bind_assoc. eapply runs_bind; [done|]. intros l _. cbn [fst snd mbind res_bind]. apply solo_shown.
      * eapply runs_go; [cbn [tpiece]; by rewrite Hp, Hom, Hd|]. constructor.
Qed.
Lemma solo_loadrow ts t i (k : tstore -> res (tstore * tout)) mp rows : (forall ts', runs E X ts' (XLoadRows mp rows) (k ts')) ->
  runs E X (set_table ts (ts_by_mint ts) (ts_by_owner ts) (ts_table ts)) (XLoadOwner t i mp rows)
    (k (set_table ts (push_at (ta_mint t) i (ts_by_mint ts)) (push_at (prefix4 (ta_owner t)) i (ts_by_owner ts)) (ts_table ts))).
Proof.
  intros Hk. rewrite same_table. assert (forall bo, runs E X (set_table ts (ts_by_mint ts) bo (ts_table ts)) (XLoadMint t i mp rows)
    (k (set_table ts (push_at (ta_mint t) i (ts_by_mint ts)) bo (ts_table ts)))) as Hm.
  { intros bo. destruct (ts_by_mint ts !! ta_mint t) as [jxs|] eqn:Hj.
    - eapply runs_go; [cbn [tpiece]; change (ts_by_mint (set_table ts (ts_by_mint ts) bo (ts_table ts))) with (ts_by_mint ts); by rewrite Hj|]. apply Hk.
    - eapply runs_go; [cbn [tpiece]; change (ts_by_mint (set_table ts (ts_by_mint ts) bo (ts_table ts))) with (ts_by_mint ts); by rewrite Hj|]. go.
      unfold push_at. rewrite Hj. apply Hk. }
  destruct (ts_by_owner ts !! prefix4 (ta_owner t)) as [jxs|] eqn:Hj.
  - eapply runs_go; [cbn [tpiece]; by rewrite Hj|]. apply Hm.
  - eapply runs_go; [cbn [tpiece]; by rewrite Hj|]. go. unfold push_at at 2. rewrite Hj. apply Hm.
Qed.
Lemma solo_loadrows ts mp rows : runs E X ts (XLoadRows mp rows) (ts' ← load_tokens ts mp rows; Done (ts', OLoad (ROk tt))).
Proof.
  revert ts. induction rows as [|v rows IH]; intros ts; cbn [load_tokens]; [go; constructor|].
  destruct (from_bytes v) as [t|] eqn:Hv; cbn [mbind res_bind]; [|apply runs_panic; cbn [tpiece]; by rewrite Hv].
  destruct (mp !! ta_mint t) as [i|] eqn:Hi; cbn [unwrap mbind res_bind]; [|apply runs_panic; cbn [tpiece]; rewrite Hv; cbn [mbind res_bind]; by rewrite Hi].
  unfold add_token. destruct (tb_save (ts_table ts) (with_mint t i)) as [[[tb j] b]|] eqn:Hs; cbn [mbind res_bind].
  - eapply runs_go. { cbn [tpiece]. rewrite Hv. cbn [mbind res_bind]. rewrite Hi. cbn [unwrap mbind res_bind]. rewrite Hs. done. }
    destruct b; [|apply IH]. apply (solo_loadrow (set_table ts (ts_by_mint ts) (ts_by_owner ts) tb) (with_mint t i) j (fun ts' => ts'' ← load_tokens ts' mp rows; Done (ts'', OLoad (ROk tt)))). apply IH.
  - apply runs_panic. cbn [tpiece]. rewrite Hv. cbn [mbind res_bind]. rewrite Hi. cbn [unwrap mbind res_bind]. by rewrite Hs.
Qed.
Lemma solo_loadmints ts mp ms rows : runs E X ts (XLoadMints ms mp rows) (let '(ts1, map) := load_mints ts mp ms in ts' ← load_tokens ts1 map rows; Done (ts', OLoad (ROk tt))).
Proof.
  revert ts mp. induction ms as [|[i m] ms IH]; intros ts mp; cbn [load_mints]; [go; apply solo_loadrows|].
  destruct (ts_mint_ix ts !! ma_pubkey m) as [j|] eqn:Hj; (eapply runs_go; [cbn [tpiece]; by rewrite Hj|]); [apply IH|]. go. apply IH.
Qed.
Lemma solo_loadmulti ts us ms rows : runs E X ts (XLoadMulti us ms rows) (ts' ← load_content ts (TSnap ms us rows); Done (ts', OLoad (ROk tt))).
Proof.
  revert ts. induction us as [|m us IH]; intros ts.
  - go. unfold load_content. cbn [sn_multis sn_mints sn_tokens foldl]. pose proof (solo_loadmints ts ∅ ms rows) as H. by destruct (load_mints _ _ _).
  - go. apply IH.
Qed.
Lemma solo_load ts p b : runs E X ts (XLoad b) ('(ts', r) ← ts_load X ts p b; Done (ts', OLoad r)).
Proof.
  unfold ts_load. destruct (lz4_decompress X b) as [d|] eqn:Hd; [|eapply runs_go; [cbn [tpiece]; by rewrite Hd|]; constructor].
  destruct (d_snap d) as [[s rest]|] eqn:Hs; [|eapply runs_go; [cbn [tpiece]; by rewrite Hd, Hs|]; constructor].
  eapply runs_go; [cbn [tpiece]; by rewrite Hd, Hs|]. pose proof (solo_loadmulti ts (sn_multis s) (sn_mints s) (sn_tokens s)) as H. destruct s as [a1 a2 a3]. cbn [sn_multis sn_mints sn_tokens] in *.
  by destruct (load_content _ _).
Qed.
(** A call has one outcome. *)
Lemma runs_fun ts t r r' : runs E X ts t r -> runs E X ts t r' -> r = r'.
Proof.
  intros H. revert r'. induction H as [ts o|ts t ts' t' r Hp _ IH|ts t Hp]; intros r' H'; inversion H' as [ts2 o2|ts2 t2 ts2' t2' r2 Hp2 Hr2|ts2 t2 Hp2]; subst; try done.
  - rewrite Hp in Hp2. injection Hp2 as <- <-. by apply IH.
  - by rewrite Hp in Hp2.
  - by rewrite Hp in Hp2.
Qed.
Lemma runs_reach ts t ts' o ok thr j : runs E X ts t (Done (ts', o)) -> thr !! j = Some t -> treach E X ok (TConc ts thr) (TConc ts' (<[j := XDone o]> thr)).
Proof.
  remember (Done (ts', o)) as r eqn:Hr. intros H. revert Hr thr. induction H as [ts o'|ts t ts1 t' r Hp _ IH|ts t Hp]; intros Hr thr Hj; [|subst|done].
  - injection Hr as -> ->. rewrite list_insert_id by done. constructor.
  - eapply treach_step; [done..|]. simpl. rewrite <- (list_insert_insert thr j (XDone o) t'). apply IH; [done|]. apply list_lookup_insert. by eapply lookup_lt_Some.
Qed.
End solo.
