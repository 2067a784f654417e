(** Packed token accounts and the token account table (C38 - C40). *)
From Verif Require Import Base DataModel TokenModel TokenProofs.

(** ** C38 *)
Definition tok1 : token_account :=
  TokenAccount Token2022P false 77 88 3 1000 Frozen (Some (5, 6)) (Some 2039280) (Some 9) (Some (map n2b [1; 2; 3])).
(** "Fields in machine range" is [ta_ok]: pubkeys below 2^256, amounts below 2^64, the mint index below 2^32. *)
Theorem C38_round_trip t : ta_ok t -> (forall d, ta_extra t = Some d -> lenN d < 2 ^ 32) -> from_bytes (to_bytes t) = Done t.
Proof. intros H1 H2. by apply round_trip_iff. Qed.
Example C38_example_hyps : ta_ok tok1 /\ (forall d, ta_extra tok1 = Some d -> lenN d < 2 ^ 32) /\
  from_bytes (to_bytes tok1) = Done tok1.
Proof. split_and!; [repeat split; intros; simpl in *; simplify_eq; done|intros d [= <-]; done|by vm_compute]. Qed.
(** The bound is exact: extension data of 4 GiB or more does not survive. *)
Theorem C38_bound_is_exact t : ta_ok t -> from_bytes (to_bytes t) = Done t -> forall d, ta_extra t = Some d -> lenN d < 2 ^ 32.
Proof. intros H1 H2. by apply round_trip_iff. Qed.
(** Two different token accounts never pack to the same bytes. *)
Theorem C38_packing_injective t t' : good t -> good t' -> to_bytes t = to_bytes t' -> t = t'.
Proof. exact (to_bytes_inj t t'). Qed.
Example C38_example_injective : good tok1 /\ good deleted_account /\ to_bytes tok1 <> to_bytes deleted_account.
Proof.
  split_and!; [|exact good_deleted|intros H; by vm_compute in H].
  split; [repeat split; intros; simpl in *; simplify_eq; done|intros d [= <-]; done].
Qed.

(** ** C39 *)
Theorem C39_peeks_agree v t : from_bytes v = Done t ->
  peek_pubkey v = Done (ta_pubkey t) /\ peek_owner v = Done (ta_owner t) /\ peek_mint v = Done (ta_mint t).
Proof.
  intros H. destruct (from_bytes_fields v t H) as (Hl & -> & -> & -> & _).
  unfold peek_pubkey, peek_owner, peek_mint. rewrite !slice_of by lia. done.
Qed.
Lemma byte01 b : b2n (if b : bool then n2b 1 else n2b 0) =? 0 = negb b.
Proof. by destruct b. Qed.
Theorem C39_snapshot_test_agrees t p :
  snap_keep p (to_bytes t) = Done (bool_decide (ta_program t = p) && negb (ta_deleted t)).
Proof.
  unfold snap_keep, to_bytes. cbn [lookup list_lookup unwrap mbind res_bind].
  rewrite b2n_n2b, (N.mod_small _ _ (flags_small t)), flag_program3.
  destruct (bool_decide _); [|done]. simpl. by destruct (ta_deleted t).
Qed.
Example C39_example_hyps : from_bytes (to_bytes tok1 ++ [n2b 7]) = Done tok1 /\
  snap_keep Token2022P (to_bytes tok1) = Done true /\ snap_keep TokenP (to_bytes tok1) = Done false.
Proof. split_and!; by vm_compute. Qed.

(** ** C40.  The specification is a finite map keyed by the full pubkey. *)
Inductive tb_op := TSave (t : token_account) | TDel (pk : pubkey).
Definition tb_do (tb : table) (o : tb_op) : res table :=
  match o with
  | TSave t => '(tb', _, _) ← tb_save tb t; Done tb'
  | TDel pk => tb_delete tb pk
  end.
Fixpoint tb_runs (tb : table) (l : list tb_op) : res table :=
  match l with [] => Done tb | o :: l' => tb' ← tb_do tb o; tb_runs tb' l' end.
Definition tb_final (l : list tb_op) : table := match tb_runs table_empty l with Done tb => tb | Panic => table_empty end.
Definition map_do (m : gmap pubkey token_account) (o : tb_op) : gmap pubkey token_account :=
  match o with TSave t => <[ta_pubkey t := t]> m | TDel pk => delete pk m end.
Definition map_of (l : list tb_op) : gmap pubkey token_account := foldl map_do ∅ l.
Definition saves_good (l : list tb_op) : Prop := forall t, TSave t ∈ l -> good t.
(** Two pubkeys whose first four bytes are equal. *)
Definition same_first4 (a b : pubkey) : Prop := take 4 (le 32 a) = take 4 (le 32 b).
#[global] Instance same_first4_dec a b : Decision (same_first4 a b).
Proof. unfold same_first4. apply _. Defined.
(** No delete names a pubkey that shares its first four bytes with another saved pubkey. *)
Definition isolated (l : list tb_op) : Prop :=
  forall pk t, TDel pk ∈ l -> TSave t ∈ l -> same_first4 (ta_pubkey t) pk -> ta_pubkey t = pk.

Lemma take4_le a : take 4 (le 32 a) = le 4 a.
Proof. done. Qed.
Lemma first4_prefix a b : same_first4 a b <-> prefix4 a = prefix4 b.
Proof.
  unfold same_first4, prefix4. rewrite !take4_le. split; intros H.
  - apply (f_equal unle) in H. by rewrite !unle_le in H.
  - assert (forall x, le 4 x = le 4 (x mod 2 ^ 32)) as Hx.
    { intros x. pose proof (le_unle (le 4 x)) as Hx. by rewrite le_length, unle_le in Hx. }
    rewrite (Hx a), (Hx b). by rewrite H.
Qed.

(** What the table really computes: a delete drops every pubkey with the same first four bytes. *)
Definition bucket_do (m : gmap pubkey token_account) (o : tb_op) : gmap pubkey token_account :=
  match o with TSave t => <[ta_pubkey t := t]> m | TDel pk => filter (fun '(q, _) => ~ same_first4 q pk) m end.
Definition bucket_map (l : list tb_op) : gmap pubkey token_account := foldl bucket_do ∅ l.
Lemma filter_first4 pk (m : gmap pubkey token_account) :
  filter (fun '(q, _) => ~ same_first4 q pk) m = filter (fun '(q, _) => prefix4 q <> prefix4 pk) m.
Proof.
  apply map_filter_ext. intros q t _. simpl. by rewrite first4_prefix.
Qed.
Lemma tb_do_rep tb m o : tb_ok tb -> rep tb m -> (forall t, o = TSave t -> good t) ->
  exists tb', tb_do tb o = Done tb' /\ tb_ok tb' /\ rep tb' (bucket_do m o).
Proof.
  intros Hok Hr Hg. destruct o as [t|pk]; simpl.
  - destruct (tb_save_spec tb t Hok (Hg t eq_refl)) as (tb' & i & b & Hs & Hok' & _). rewrite Hs. exists tb'.
    split; [done|]. split; [done|]. apply (rep_save tb tb' m t i b); auto.
  - destruct (tb_delete_spec tb pk Hok) as (tb' & Hs & Hok' & _). exists tb'. split; [done|]. split; [done|].
    rewrite filter_first4. by apply (rep_delete tb).
Qed.
Lemma tb_runs_rep l tb m : tb_ok tb -> rep tb m -> saves_good l ->
  exists tb', tb_runs tb l = Done tb' /\ tb_ok tb' /\ rep tb' (foldl bucket_do m l).
Proof.
  revert tb m. induction l as [|o l IH]; simpl; intros tb m Hok Hr Hg; [eauto|].
  destruct (tb_do_rep tb m o Hok Hr) as (tb1 & -> & Hok1 & Hr1); [intros t ->; apply Hg; by left|].
  simpl. apply IH; [done..|]. intros t Ht. apply Hg. by right.
Qed.
Theorem C40_table_exact l pk : saves_good l -> exists tb, tb_runs table_empty l = Done tb /\ tb_get tb pk = Done (bucket_map l !! pk).
Proof.
  intros Hg. destruct (tb_runs_rep l table_empty ∅ tb_ok_empty rep_empty Hg) as (tb & H1 & Hok & Hr).
  exists tb. split; [done|]. by apply tb_get_spec.
Qed.
Lemma saved_key l m pk : is_Some (foldl bucket_do m l !! pk) -> is_Some (m !! pk) \/ exists t, TSave t ∈ l /\ ta_pubkey t = pk.
Proof.
  revert m. induction l as [|o l IH]; simpl; intros m H; [by left|]. apply IH in H as [H|(t & Ht & <-)].
  - destruct o as [t|q]; simpl in H.
    + destruct (decide (ta_pubkey t = pk)) as [<-|Hne]; [right; exists t; split; [by left|done]|].
      left. by rewrite lookup_insert_ne in H.
    + left. destruct H as [t [H _]%map_filter_lookup_Some]. eauto.
  - right. exists t. split; [by right|done].
Qed.
Lemma isolated_map l : isolated l -> bucket_map l = map_of l.
Proof.
  unfold bucket_map, map_of. intros Hi.
  assert (forall l0 l1 m, l = l0 ++ l1 -> m = foldl bucket_do ∅ l0 -> foldl bucket_do m l1 = foldl map_do m l1) as H.
  { intros l0 l1. revert l0. induction l1 as [|o l1 IH]; simpl; intros l0 m Hl Hm; [done|].
    assert (bucket_do m o = map_do m o) as He.
    { destruct o as [t|pk]; simpl; [done|]. apply map_eq. intros q.
      destruct (decide (q = pk)) as [->|Hne].
      - rewrite lookup_delete. apply map_filter_lookup_None. right. intros t _ H. by apply H.
      - rewrite lookup_delete_ne by done. destruct (m !! q) as [t|] eqn:Hq.
        + apply map_filter_lookup_Some. split; [done|]. intros Hs.
          destruct (saved_key l0 ∅ q) as [[? H]|(t' & Ht' & Hpk)]; [by rewrite <- Hm, Hq|by rewrite lookup_empty in H|].
          apply Hne. rewrite <- Hpk. apply (Hi pk t'); rewrite ?Hl.
          * apply elem_of_app. right. by left.
          * apply elem_of_app. by left.
          * by rewrite Hpk.
        + apply map_filter_lookup_None. by left. }
    rewrite <- He. apply (IH (l0 ++ [o])); [by rewrite <- app_assoc|]. rewrite foldl_app. by rewrite <- Hm. }
  by apply (H []).
Qed.
(** The full claim (for all histories) is refuted below; it holds when no deleted pubkey shares its
    first four bytes with another saved one - in particular for every history without deletes. *)
Theorem C40_table_is_map_partial l pk : saves_good l -> isolated l ->
  exists tb, tb_runs table_empty l = Done tb /\ tb_get tb pk = Done (map_of l !! pk).
Proof. intros Hg Hi. rewrite <- (isolated_map l Hi). by apply C40_table_exact. Qed.
Lemma sg_nil : saves_good [].
Proof. intros t H. by apply elem_of_nil in H. Qed.
Lemma sg_save t l : good t -> saves_good l -> saves_good (TSave t :: l).
Proof. intros Ht Hl u [Hu|Hu]%elem_of_cons; [by injection Hu as ->|by apply Hl]. Qed.
Lemma sg_del q l : saves_good l -> saves_good (TDel q :: l).
Proof. intros Hl u [Hu|Hu]%elem_of_cons; [done|by apply Hl]. Qed.
Definition tokA : token_account := TokenAccount TokenP false 5 50 0 10 Init None None None None.
Definition tokB : token_account := TokenAccount TokenP false (5 + 2 ^ 32) 60 0 20 Init None None None None.
Definition tokC : token_account := TokenAccount TokenP false 6 70 0 20 Init None None None None.
Lemma good_A : good tokA. Proof. split; [repeat split; intros; done|done]. Qed.
Lemma good_B : good tokB. Proof. split; [repeat split; intros; done|done]. Qed.
Lemma good_C : good tokC. Proof. split; [repeat split; intros; done|done]. Qed.
Example C40_example_hyps : saves_good [TSave tokA; TSave tokB; TSave tokC; TDel 6] /\ isolated [TSave tokA; TSave tokB; TSave tokC; TDel 6].
Proof.
  split.
  - apply sg_save, sg_save, sg_save, sg_del, sg_nil; [exact good_A|exact good_B|exact good_C].
  - intros pk t H1 H2 H3. rewrite !elem_of_cons, elem_of_nil in H1, H2.
    destruct H1 as [H1|[H1|[H1|[H1|H1]]]]; try done. injection H1 as ->.
    destruct H2 as [H2|[H2|[H2|[H2|H2]]]]; try done; injection H2 as ->; try done; by vm_compute in H3.
Qed.
(** Deleting one account makes another one, with the same first four bytes, disappear. *)
Theorem C40_delete_loses_other_account_refuted : exists l pk t tb,
  saves_good l /\ map_of l !! pk = Some t /\ tb_runs table_empty l = Done tb /\ tb_get tb pk = Done None.
Proof.
  exists [TSave tokA; TSave tokB; TDel (ta_pubkey tokB)], (ta_pubkey tokA), tokA.
  destruct (C40_table_exact [TSave tokA; TSave tokB; TDel (ta_pubkey tokB)] (ta_pubkey tokA)) as (tb & H1 & H2).
  { apply sg_save, sg_save, sg_del, sg_nil; [exact good_A|exact good_B]. }
  exists tb. split_and!; [|by vm_compute|done|].
  - apply sg_save, sg_save, sg_del, sg_nil; [exact good_A|exact good_B].
  - rewrite H2. by vm_compute.
Qed.
(** [contains] answers for a pubkey that was never saved, with the position of another one. *)
Theorem C40_contains_other_account_refuted : exists l pk tb i,
  saves_good l /\ map_of l !! pk = None /\ tb_runs table_empty l = Done tb /\ tb_contains tb pk = Done (Some i).
Proof.
  exists [TSave tokA], (ta_pubkey tokB), (tb_final [TSave tokA]), 0%nat. split_and!.
  - apply sg_save, sg_nil. exact good_A.
  - by vm_compute.
  - by vm_compute.
  - by vm_compute.
Qed.
(** [contains] never misses an account the table holds, and never fails. *)
Theorem C40_contains_no_miss l pk : saves_good l ->
  exists tb o, tb_runs table_empty l = Done tb /\ tb_contains tb pk = Done o /\ (is_Some (bucket_map l !! pk) -> is_Some o).
Proof.
  intros Hg. destruct (tb_runs_rep l table_empty ∅ tb_ok_empty rep_empty Hg) as (tb & H1 & Hok & Hr).
  destruct (tb_contains_spec tb _ pk Hok Hr) as (o & Ho & H & _). exists tb, o. split; [done|]. split; [done|].
  intros Hs. destruct (H Hs) as (i & t & -> & _). eauto.
Qed.
(** An update keeps the position: once saved, an account keeps its position over any later saves and
    any deletes of other buckets, and saving it again reports that position and "not new". *)
Lemma runs_keep_pos l tb tb' i t pk : tb_ok tb -> at_pos tb pk i t -> saves_good l ->
  (forall q, TDel q ∈ l -> ~ same_first4 q pk) -> tb_runs tb l = Done tb' -> tb_ok tb' /\ exists t', at_pos tb' pk i t'.
Proof.
  revert tb t. induction l as [|o l IH]; simpl; intros tb t Hok Ha Hg Hd Hr; [injection Hr as <-; eauto|].
  assert (exists tb1 t1, tb_do tb o = Done tb1 /\ tb_ok tb1 /\ at_pos tb1 pk i t1) as (tb1 & t1 & H1 & Hok1 & Ha1).
  { destruct o as [u|q]; simpl.
    - assert (good u) as Hu by (apply Hg; by left).
      destruct (tb_save_spec tb u Hok Hu) as (tb1 & j & b & -> & Hok1 & Hat & Hoth & Hf & Ht & _). exists tb1.
      destruct (decide (pk = ta_pubkey u)) as [->|Hne].
      + exists u. split; [done|]. split; [done|]. destruct b.
        * destruct (Ht eq_refl) as [_ Hno]. by apply Hno in Ha.
        * destruct (Hf eq_refl) as (t0 & Ht0). by destruct (at_pos_fun _ _ _ _ _ _ Hok Ha Ht0) as [-> _].
      + exists t. split; [done|]. split; [done|]. by apply Hoth.
    - destruct (tb_delete_spec tb q Hok) as (tb1 & -> & Hok1 & Hat & _). exists tb1, t. split; [done|]. split; [done|].
      apply Hat. split; [|done]. intros He. apply (Hd q); [by left|]. by apply first4_prefix. }
  rewrite H1 in Hr. simpl in Hr. apply (IH tb1 t1); try done.
  - intros u Hu. apply Hg. by right.
  - intros q Hq. apply Hd. by right.
Qed.
Theorem C40_update_keeps_position l t l' t' tb tb1 i b tb2 : saves_good l -> good t -> saves_good l' -> good t' ->
  ta_pubkey t' = ta_pubkey t -> (forall q, TDel q ∈ l' -> ~ same_first4 q (ta_pubkey t)) ->
  tb_runs table_empty l = Done tb -> tb_save tb t = Done (tb1, i, b) -> tb_runs tb1 l' = Done tb2 ->
  exists tb3, tb_save tb2 t' = Done (tb3, i, false).
Proof.
  intros Hg Ht Hg' Ht' Hpk Hd H1 H2 H3.
  destruct (tb_runs_rep l table_empty ∅ tb_ok_empty rep_empty Hg) as (tb' & H1' & Hok & _). rewrite H1 in H1'. injection H1' as <-.
  destruct (tb_save_spec tb t Hok Ht) as (tb1' & i' & b' & H2' & Hok1 & Ha & _). rewrite H2 in H2'. injection H2' as <- <- <-.
  destruct (runs_keep_pos l' tb1 tb2 i t (ta_pubkey t) Hok1 Ha Hg' Hd H3) as (Hok2 & t0 & Ha2).
  destruct (tb_save_spec tb2 t' Hok2 Ht') as (tb3 & j & b3 & H4 & Hok3 & _ & _ & Hf & Htr & _). exists tb3. rewrite H4.
  rewrite Hpk in *. destruct b3; [destruct (Htr eq_refl) as [_ Hno]; by apply Hno in Ha2|].
  destruct (Hf eq_refl) as (t1 & Ha3). by destruct (at_pos_fun _ _ _ _ _ _ Hok2 Ha2 Ha3) as [-> _].
Qed.
Example C40_example_position : exists tb tb1 i b tb2, tb_runs table_empty [TSave tokA] = Done tb /\
  tb_save tb tokB = Done (tb1, i, b) /\ tb_runs tb1 [TSave tokC; TDel 6] = Done tb2 /\ ~ same_first4 6 (ta_pubkey tokB).
Proof.
  exists (tb_final [TSave tokA]), (tb_final [TSave tokA; TSave tokB]), 1%nat, true, (tb_final [TSave tokA; TSave tokB; TSave tokC; TDel 6]).
  split_and!; [by vm_compute..|]. intros H. by vm_compute in H.
Qed.

Print Assumptions C38_round_trip.
Print Assumptions C38_bound_is_exact.
Print Assumptions C38_packing_injective.
Print Assumptions C39_peeks_agree.
Print Assumptions C39_snapshot_test_agrees.
Print Assumptions C40_table_exact.
Print Assumptions C40_table_is_map_partial.
Print Assumptions C40_delete_loses_other_account_refuted.
Print Assumptions C40_contains_other_account_refuted.
Print Assumptions C40_contains_no_miss.
Print Assumptions C40_update_keeps_position.
