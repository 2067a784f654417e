(** Answers of concurrent calls of the token store (C83, C84, C85). *)
From Verif Require Import Base SMap DataModel BincodeModel BincodeProofs FilterModel FilterProofs StoreModel TokenModel TokenProofs TokenProps SplModel SplProofs TokenUtilsModel
  TokenUtilsProofs TokenPendModel TokenPendSpec TokenPendProofs TokenPendProps TokenUtilsProps TokenStoreModel TokenStoreSpec TokenStoreProofs TokenStoreViews TokenStoreProps TokenStoreOrder
  TokenStoreQuery TokenStoreQueryProps TokenStoreSafe TokenConcModel TokenConcSpec TokenConcProofs TokenConcSolo TokenConcProps TokenConcIndex TokenConcQueryProps TokenConcServe TokenConcStay TokenConcSlots.
#[local] Arguments le : simpl never.
#[local] Arguments unle : simpl never.
#[local] Opaque to_bytes from_bytes peek_pubkey.

(** ** C84: answers are delivered content *)
(** A read of [pk] that returns an account, at any commitment and whatever runs beside it, returns the key asked for and content that a call
    delivered for this key. *)
Theorem C84_read E X L cs cs' j pk c b : calm_world E L -> treach E X (calm_call E L) tc_empty cs -> made cs j (XGet pk c) -> treach E X (calm_call E L) cs cs' ->
  returned cs' j (OGet (Some b)) -> genuine E L pk b.
Proof.
  intros HW Hr [_ Hj] Hr' Hb. destruct (reach_cinv E X L HW _ _ Hr (cinv_empty E L)) as [Hi _].
  assert (Forall (thg E L) (tc_thr cs')) as Hth. { apply (reach_thg E X L HW _ _ Hr' Hi), (reach_thg E X L HW _ _ Hr (cinv_empty E L)). constructor. }
  pose proof (Forall_lookup_1 _ _ _ _ Hth Hb) as Hg. simpl in Hg. destruct (reach_asked E X L HW pk _ _ j Hr' Hi _ Hj eq_refl) as (t' & Ht' & Ha). unfold returned in Hb. rewrite Hb in Ht'. injection Ht' as <-.
  specialize (Ha b eq_refl). unfold gen in Hg. by rewrite Ha in Hg.
Qed.
Print Assumptions C84_read.
(** The same for every account in the answer to a query and in the list that [process_slot_data] returns for the subscribers. *)
Theorem C84_lists E X L cs j l b : calm_world E L -> treach E X (calm_call E L) tc_empty cs -> returned cs j (OGpa (ROk l)) \/ returned cs j (OSlot l) -> b ∈ l ->
  genuine E L (d_pubkey b) b.
Proof.
  intros HW Hr Hj Hb. assert (Forall (thg E L) (tc_thr cs)) as Hth. { apply (reach_thg E X L HW _ _ Hr (cinv_empty E L)). constructor. }
  assert (Forall (gen E L) l) as Hl by (destruct Hj as [Hj|Hj]; apply (Forall_lookup_1 _ _ _ _ Hth Hj)). by eapply Forall_forall in Hl.
Qed.
Print Assumptions C84_lists.
Definition made_b (cs : tconc) (j : nat) : option tthr := t ← tc_thr cs !! j; if is_call t then Some t else None.
Lemma made_check cs j t : made_b cs j = Some t -> made cs j t.
Proof. unfold made_b, made. intros H. apply bind_Some in H as (u & Hu & H). destruct (is_call u) eqn:Hc; [|done]. injection H as <-. done. Qed.
Definition gave (cs : tconc) (j : nat) : option tout := match tc_thr cs !! j with Some (XDone r) => Some r | _ => None end.
Lemma gave_check cs j r : gave cs j = Some r -> returned cs j r.
Proof. unfold gave, returned. destruct (tc_thr cs !! j) as [[]|]; try done. by intros [= ->]. Qed.
(** What a schedule does after another one. *)
Lemma play_app free L cs l1 l2 : play free L cs (l1 ++ l2) = match play free L cs l1 with Some cs' => play free L cs' l2 | None => None end.
Proof. revert cs. induction l1 as [|a l1 IH]; intros cs; simpl; [done|]. destruct a as [t|n|j n].
  - by destruct (is_call t && _).
  - destruct (L !! n); [|done]. by destruct (free || _).
  - by destruct (go _ _ _ _ _).
Qed.
Lemma played_more L l1 l2 : forallb raw_b L = true -> plays false L l1 = true -> plays false L (l1 ++ l2) = true -> treach E0 X0 (calm_call E0 L) (played false L l1) (played false L (l1 ++ l2)).
Proof.
  unfold plays, played. intros Hraw. rewrite play_app. destruct (play false L tc_empty l1) as [cs|]; [|done]. destruct (play false L cs l2) as [cs'|] eqn:H; [|done]. intros _ _. by eapply play_calm.
Qed.
Definition crowd_read : list tact := [AOp 0; fin 0; AOp 1; AOp 2; AOp 3; AGo 1 4; AGo 2 3; AGo 3 4; AGo 2 2; AOp 4; AGo 4 2; AOp 5; AOp 6; AOp 7; ACall (XGet 77 Confirmed)].
Definition amount_of (b : acct) : option N := match d_data b with DRaw v => sa_amount <$> unpack_account v | _ => None end.
Definition got (cs : tconc) (j : nat) : option (N * option N) := match gave cs j with Some (OGet (Some b)) => Some (d_slot b, amount_of b) | _ => None end.
Definition listed_b (cs : tconc) (j : nat) : option (list pubkey) := match gave cs j with Some (OGpa (ROk l)) | Some (OSlot l) => Some (d_pubkey <$> l) | _ => None end.

(** The reads and queries of [crowd_play], begun and finished amid its other calls. *)
Definition crowd_all : list tact := crowd_read ++ [ACall (XGet 78 Processed); ACall (XGpa spl_token_id (Some (by_owner 1002 ++ by_mint 1001)) Confirmed); AOp 8; AGo 5 6; AGo 6 4; AGo 8 1; AGo 7 3; AGo 8 2;
   AGo 9 2; AGo 1 2; AGo 10 3; AGo 7 2; AGo 5 1; AGo 10 4; AGo 9 1; fin 8; fin 10; fin 7].
Example C84_example_hyps : calm_world E0 crowd /\ treach E0 X0 (calm_call E0 crowd) tc_empty (played false crowd crowd_read) /\ made (played false crowd crowd_read) 8 (XGet 77 Confirmed) /\
  treach E0 X0 (calm_call E0 crowd) (played false crowd crowd_read) (played false crowd crowd_all) /\
  got (played false crowd crowd_all) 8 = Some (11, Some 7) /\ listed_b (played false crowd crowd_all) 10 = Some [77] /\ listed_b (played false crowd crowd_all) 7 = Some [77; 78].
Proof.
  split; [apply crowd_world|]. split; [apply played_calm; [done|by vm_compute]|]. split; [apply made_check; by vm_compute|]. split; [apply played_more; [done|by vm_compute..]|].
  split; [|split]; by vm_compute.
Qed.

(** ** C85: what has been returned stays returned *)
(** An account that no call closes and that a query by owner has returned, at any commitment, is in the answer to every query by that owner
    which begins afterwards, whatever runs beside it. *)
Theorem C85_owner E X L cs0 cs1 cs2 j k p fl c p' fl' c' o pk r r' : calm_world E L -> keeps_owner E L -> never_closed L pk ->
  treach E X (calm_call E L) tc_empty cs0 -> made cs0 j (XGpa p (Some fl) c) -> token_query p fl -> pins fl 32 (Some o) -> pins fl 0 None ->
  treach E X (calm_call E L) cs0 cs1 -> returned cs1 j (OGpa (ROk r)) -> pk ∈ d_pubkey <$> r ->
  made cs1 k (XGpa p' (Some fl') c') -> token_query p' fl' -> pins fl' 32 (Some o) -> pins fl' 0 None ->
  treach E X (calm_call E L) cs1 cs2 -> returned cs2 k (OGpa (ROk r')) -> pk ∈ d_pubkey <$> r'.
Proof.
  intros HW HO HN Hr0 [_ Hj] Hq1 Hq2 Hq3 Hr1 Ho1 Hin [_ Hk] Hq1' Hq2' Hq3' Hr2 Ho2. destruct (reach_cinv E X L HW _ _ Hr0 (cinv_empty E L)) as [Hi0 _]. destruct (reach_cinv E X L HW _ _ Hr1 Hi0) as [Hi1 _].
  destruct (reach_only E X L HW pk HN (WOwner o) HO _ _ j _ Hr1 Hi0 Hj) as (t1 & Ht1 & Hon). { exists fl. split; [done|]. by apply token_query_filter. }
  rewrite Ho1 in Ht1. injection Ht1 as <-. specialize (Hon Hin).
  destruct (reach_will E X L HW pk HN (WOwner o) HO _ _ k _ Hr2 Hi1 Hon Hk) as (t2 & Ht2 & Hwi). { exists fl'. split; [done|]. by apply token_query_filter. }
  rewrite Ho2 in Ht2. by injection Ht2 as <-.
Qed.
Print Assumptions C85_owner.
(** The same by mint; accounts may even change their owner. *)
Theorem C85_mint E X L cs0 cs1 cs2 j k p fl c p' fl' c' m pk r r' : calm_world E L -> never_closed L pk ->
  treach E X (calm_call E L) tc_empty cs0 -> made cs0 j (XGpa p (Some fl) c) -> token_query p fl -> pins fl 32 None -> pins fl 0 (Some m) ->
  treach E X (calm_call E L) cs0 cs1 -> returned cs1 j (OGpa (ROk r)) -> pk ∈ d_pubkey <$> r ->
  made cs1 k (XGpa p' (Some fl') c') -> token_query p' fl' -> pins fl' 32 None -> pins fl' 0 (Some m) ->
  treach E X (calm_call E L) cs1 cs2 -> returned cs2 k (OGpa (ROk r')) -> pk ∈ d_pubkey <$> r'.
Proof.
  intros HW HN Hr0 [_ Hj] Hq1 Hq2 Hq3 Hr1 Ho1 Hin [_ Hk] Hq1' Hq2' Hq3' Hr2 Ho2. destruct (reach_cinv E X L HW _ _ Hr0 (cinv_empty E L)) as [Hi0 _]. destruct (reach_cinv E X L HW _ _ Hr1 Hi0) as [Hi1 _].
  destruct (reach_only E X L HW pk HN (WMint m) I _ _ j _ Hr1 Hi0 Hj) as (t1 & Ht1 & Hon). { exists fl. split; [done|]. by apply token_query_filter. }
  rewrite Ho1 in Ht1. injection Ht1 as <-. specialize (Hon Hin).
  destruct (reach_will E X L HW pk HN (WMint m) I _ _ k _ Hr2 Hi1 Hon Hk) as (t2 & Ht2 & Hwi). { exists fl'. split; [done|]. by apply token_query_filter. }
  rewrite Ho2 in Ht2. by injection Ht2 as <-.
Qed.
Print Assumptions C85_mint.
(** An account that no call closes and that a finalized read has returned is returned by every read that begins afterwards, at any commitment. *)
Theorem C85_read E X L cs0 cs1 cs2 j k c pk b o : calm_world E L -> tidy E L -> never_closed L pk ->
  treach E X (calm_call E L) tc_empty cs0 -> made cs0 j (XGet pk Finalized) -> treach E X (calm_call E L) cs0 cs1 -> returned cs1 j (OGet (Some b)) ->
  made cs1 k (XGet pk c) -> treach E X (calm_call E L) cs1 cs2 -> returned cs2 k (OGet o) -> is_Some o.
Proof.
  intros HW HT HN Hr0 [_ Hj] Hr1 Ho1 [_ Hk] Hr2 Ho2. pose proof (reach_cfg E X L HW HT _ _ Hr0 (cfg_empty E L)) as HC0. pose proof (reach_cfg E X L HW HT _ _ Hr1 HC0) as HC1.
  destruct (reach_shows E X L HW pk HN _ _ j _ Hr1 (cf_inv _ _ _ HC0) Hj) as (t1 & Ht1 & Hon); [done|]. rewrite Ho1 in Ht1. injection Ht1 as <-.
  destruct (reach_finds E X L HW HT pk HN _ _ k _ Hr2 HC1 Hk) as (t2 & Ht2 & Hwi). { split; [done|]. apply Hon. eauto. }
  rewrite Ho2 in Ht2. by injection Ht2 as <-.
Qed.
Print Assumptions C85_read.
(** A query and a read have returned the account 77; the same are called again while slot 11 is finalized. *)
Definition ask_owner : tthr := XGpa spl_token_id (Some (by_owner 1002)) Confirmed.
Definition ask_mint : tthr := XGpa spl_token_id (Some (by_mint 1001)) Processed.
Definition stay0 : list tact := [AOp 0; fin 0; AOp 1; fin 1; AOp 2; AOp 3; fin 2; fin 3; AOp 4; fin 4; AOp 6; AGo 5 1; ACall ask_owner; ACall ask_mint; ACall (XGet 77 Finalized)].
Definition stay1 : list tact := stay0 ++ [AGo 5 2; fin 6; fin 7; fin 8; ACall ask_owner; ACall ask_mint; ACall (XGet 77 Confirmed)].
Definition stay2 : list tact := stay1 ++ [AOp 7; AGo 9 3; fin 5; AGo 12 4; AGo 9 2; AGo 10 2; AGo 12 1; fin 9; fin 10; fin 11; fin 12].
Lemma stay_keep pk : pk <> 78 -> never_closed crowd pk.
Proof.
  intros Hne o Ho (a & Ha & Hk & Hl). unfold crowd in Ho. rewrite !elem_of_cons, elem_of_nil in Ho. destruct_or! Ho; subst o; try done; injection Ha as <-; simpl in *; subst pk; try done; destruct Hl as [Hl|[Hl _]]; (done || by apply Hl).
Qed.
Example C85_example_hyps : calm_world E0 crowd /\ tidy E0 crowd /\ keeps_owner E0 crowd /\ never_closed crowd 77 /\
  treach E0 X0 (calm_call E0 crowd) tc_empty (played false crowd stay0) /\ treach E0 X0 (calm_call E0 crowd) (played false crowd stay0) (played false crowd stay1) /\
  treach E0 X0 (calm_call E0 crowd) (played false crowd stay1) (played false crowd stay2) /\
  made (played false crowd stay0) 6 ask_owner /\ made (played false crowd stay0) 7 ask_mint /\ made (played false crowd stay0) 8 (XGet 77 Finalized) /\
  listed_b (played false crowd stay1) 6 = Some [77] /\ listed_b (played false crowd stay1) 7 = Some [77] /\ got (played false crowd stay1) 8 = Some (0, Some 5) /\
  made (played false crowd stay1) 9 ask_owner /\ made (played false crowd stay1) 10 ask_mint /\ made (played false crowd stay1) 11 (XGet 77 Confirmed) /\
  listed_b (played false crowd stay2) 9 = Some [77] /\ listed_b (played false crowd stay2) 10 = Some [77] /\ got (played false crowd stay2) 11 = Some (11, Some 5) /\
  (token_query spl_token_id (by_owner 1002) /\ pins (by_owner 1002) 32 (Some 1002) /\ pins (by_owner 1002) 0 None) /\
  (token_query spl_token_id (by_mint 1001) /\ pins (by_mint 1001) 32 None /\ pins (by_mint 1001) 0 (Some 1001)).
Proof.
  split; [apply crowd_world|]. split; [apply tidy_check; [done|by vm_compute]|]. split; [refine (keeps_check _ crowd_raw sa_owner _); by vm_compute|]. split; [by apply stay_keep|].
  split; [apply played_calm; [done|by vm_compute]|]. split; [apply played_more; [done|by vm_compute..]|]. split; [apply played_more; [done|by vm_compute..]|].
  do 3 (split; [apply made_check; by vm_compute|]). do 3 (split; [by vm_compute|]). do 3 (split; [apply made_check; by vm_compute|]). do 3 (split; [by vm_compute|]).
  split; [by apply asks_owner|by apply asks_mint].
Qed.

(** The first read must be finalized: while a slot is being finalized its accounts are in neither part of the store, and a read at the same
    commitment as one that found the account returns nothing. *)
Definition gap0 : list tact := [AOp 0; fin 0; AOp 3; fin 1; ACall (XGet 77 Processed)].
Definition gap1 : list tact := gap0 ++ [fin 2; AOp 7; AGo 3 4; ACall (XGet 77 Processed)].
Definition gap2 : list tact := gap1 ++ [fin 4].
Theorem C85_pending_refuted : exists L cs0 cs1 cs2 j k c pk b, calm_world E0 L /\ tidy E0 L /\ never_closed L pk /\
  treach E0 X0 (calm_call E0 L) tc_empty cs0 /\ made cs0 j (XGet pk c) /\ treach E0 X0 (calm_call E0 L) cs0 cs1 /\ returned cs1 j (OGet (Some b)) /\
  made cs1 k (XGet pk c) /\ treach E0 X0 (calm_call E0 L) cs1 cs2 /\ returned cs2 k (OGet None).
Proof.
  exists crowd, (played false crowd gap0), (played false crowd gap1), (played false crowd gap2), 2%nat, 4%nat, Processed, 77. eexists.
  split; [apply crowd_world|]. split; [apply tidy_check; [done|by vm_compute]|]. split; [by apply stay_keep|]. split; [apply played_calm; [done|by vm_compute]|]. split; [apply made_check; by vm_compute|].
  split; [apply played_more; [done|by vm_compute..]|]. split; [apply gave_check; vm_compute; reflexivity|]. split; [apply made_check; by vm_compute|].
  split; [apply played_more; [done|by vm_compute..]|]. apply gave_check; by vm_compute.
Qed.
Print Assumptions C85_pending_refuted.
(** In the same window a read goes back to older content and labels it with the newer slot: of two confirmed reads, one after the other, both say slot 11, the first
    has the content delivered at slot 11 and the second the content delivered at slot 10. *)
Definition back0 : list tact := [AOp 0; fin 0; AOp 1; fin 1; AOp 3; fin 2; AOp 4; fin 3; AOp 6; fin 4; ACall (XGet 77 Confirmed)].
Definition back1 : list tact := back0 ++ [fin 5; AOp 7; AGo 6 4; ACall (XGet 77 Confirmed)].
Definition back2 : list tact := back1 ++ [fin 7].
Theorem C85_back_refuted : exists L cs0 cs1 cs2 j k pk b1 b2 a1 a2, calm_world E0 L /\ tidy E0 L /\ never_closed L pk /\
  treach E0 X0 (calm_call E0 L) tc_empty cs0 /\ made cs0 j (XGet pk Confirmed) /\ treach E0 X0 (calm_call E0 L) cs0 cs1 /\ returned cs1 j (OGet (Some b1)) /\
  made cs1 k (XGet pk Confirmed) /\ treach E0 X0 (calm_call E0 L) cs1 cs2 /\ returned cs2 k (OGet (Some b2)) /\
  TUpdate a1 Processed ∈ L /\ TUpdate a2 Finalized ∈ L /\ d_pubkey a1 = pk /\ d_pubkey a2 = pk /\ d_data b1 = d_data a1 /\ d_data b2 = d_data a2 /\ d_data a1 <> d_data a2 /\
  d_slot a1 = 11 /\ d_slot a2 = 10 /\ d_slot b1 = 11 /\ d_slot b2 = 11.
Proof.
  exists crowd, (played false crowd back0), (played false crowd back1), (played false crowd back2), 5%nat, 7%nat, 77. eexists _, _, (tokd 77 1001 1002 7 11 3), (tokd 77 1001 1002 5 10 1).
  split; [apply crowd_world|]. split; [apply tidy_check; [done|by vm_compute]|]. split; [by apply stay_keep|]. split; [apply played_calm; [done|by vm_compute]|]. split; [apply made_check; by vm_compute|].
  split; [apply played_more; [done|by vm_compute..]|]. split; [apply gave_check; vm_compute; reflexivity|]. split; [apply made_check; by vm_compute|].
  split; [apply played_more; [done|by vm_compute..]|]. split; [apply gave_check; vm_compute; reflexivity|].
  split; [unfold crowd; set_solver|]. split; [unfold crowd; set_solver|]. split; [done|]. split; [done|]. split; [by vm_compute|]. split; [by vm_compute|]. split; [by vm_compute|]. done.
Qed.
Print Assumptions C85_back_refuted.
(** A query, unlike a read, can miss an account that a finalized read has returned before: the row is written first and listed under its owner later (C82 needs its quiet store). *)
Definition miss0 : list tact := [AOp 0; fin 0; AOp 1; AGo 1 4; ACall (XGet 77 Finalized)].
Definition miss1 : list tact := miss0 ++ [fin 2; ACall (XGpa spl_token_id (Some (by_owner 1002)) Finalized)].
Definition miss2 : list tact := miss1 ++ [fin 3].
Theorem C82_overlap_refuted : exists L cs0 cs1 cs2 j k p fl o pk b, calm_world E0 L /\ tidy E0 L /\ keeps_owner E0 L /\ never_closed L pk /\ token_query p fl /\ pins fl 32 (Some o) /\ pins fl 0 None /\
  treach E0 X0 (calm_call E0 L) tc_empty cs0 /\ made cs0 j (XGet pk Finalized) /\ treach E0 X0 (calm_call E0 L) cs0 cs1 /\ returned cs1 j (OGet (Some b)) /\
  (exists v, d_data b = DRaw v /\ take 32 (drop 32 v) = le 32 o) /\
  made cs1 k (XGpa p (Some fl) Finalized) /\ treach E0 X0 (calm_call E0 L) cs1 cs2 /\ returned cs2 k (OGpa (ROk [])).
Proof.
  exists crowd, (played false crowd miss0), (played false crowd miss1), (played false crowd miss2), 2%nat, 3%nat, spl_token_id, (by_owner 1002), 1002, 77. eexists.
  split; [apply crowd_world|]. split; [apply tidy_check; [done|by vm_compute]|]. split; [refine (keeps_check _ crowd_raw sa_owner _); by vm_compute|]. split; [by apply stay_keep|].
  destruct (asks_owner 1002) as (? & ? & ?); [done|]. do 3 (split; [done|]). split; [apply played_calm; [done|by vm_compute]|]. split; [apply made_check; by vm_compute|].
  split; [apply played_more; [done|by vm_compute..]|]. split; [apply gave_check; vm_compute; reflexivity|]. split; [eexists; split; [reflexivity|by vm_compute]|]. split; [apply made_check; by vm_compute|].
  split; [apply played_more; [done|by vm_compute..]|]. apply gave_check; by vm_compute.
Qed.
Print Assumptions C82_overlap_refuted.

(** ** C83: finalized answers do not go back in slots *)
(** Whatever the calls, if [process_slot_data] calls do not overlap each other: a finalized read or query that begins after another one has returned labels its accounts with no
    smaller slot. *)
Theorem C83_labels E X cs0 cs1 cs2 j k t u r1 r2 s1 s2 : treach E X slots_apart tc_empty cs0 -> made cs0 j t -> final_read t = true -> treach E X slots_apart cs0 cs1 -> returned cs1 j r1 ->
  made cs1 k u -> final_read u = true -> treach E X slots_apart cs1 cs2 -> returned cs2 k r2 -> s1 ∈ slots_of r1 -> s2 ∈ slots_of r2 -> s1 <= s2.
Proof.
  intros Hr0 [_ Hj] Hf1 Hr1 Ho1 [_ Hk] Hf2 Hr2 Ho2 Hs1 Hs2. destruct (reach_sinv E X _ _ Hr0 sinv_empty) as (Hi0 & _). destruct (reach_sinv E X _ _ Hr1 Hi0) as (Hi1 & _).
  destruct (reach_lab E X 0 _ _ j Hr1 Hi0 (N.le_0_l _) _ Hj) as (t1 & Ht1 & Hl1). { destruct t as [| | | | | | | | | | | | | | | | | | | | | |? c| | | | | | | | |? ? c| | | | | | | | | | | | | | | | | | | |]; try done; by destruct c. }
  rewrite Ho1 in Ht1. injection Ht1 as <-. simpl in Hl1. eapply Forall_forall in Hl1; [|done].
  destruct (reach_lab E X s1 _ _ k Hr2 Hi1 (proj2 Hl1) _ Hk) as (t2 & Ht2 & Hl2). { destruct u as [| | | | | | | | | | | | | | | | | | | | | |? c| | | | | | | | |? ? c| | | | | | | | | | | | | | | | | | | |]; try done; by destruct c. }
  rewrite Ho2 in Ht2. injection Ht2 as <-. simpl in Hl2. eapply Forall_forall in Hl2; [|done]. apply Hl2.
Qed.
Print Assumptions C83_labels.
(** The confirmed and the finalized slot themselves only grow. *)
Theorem C83_slots E X cs cs' : treach E X slots_apart tc_empty cs -> treach E X slots_apart cs cs' ->
  ts_conf (tc_ts cs) <= ts_conf (tc_ts cs') /\ ts_fin (tc_ts cs) <= ts_fin (tc_ts cs').
Proof. intros H H'. destruct (reach_sinv E X _ _ H sinv_empty) as (Hi & _). by destruct (reach_sinv E X _ _ H' Hi) as (_ & ? & ?). Qed.
Print Assumptions C83_slots.
(** Schedules without overlapping [process_slot_data]. *)
Definition apart_b (cs : tconc) (t : tthr) : bool := negb (slotting t) || forallb (fun x => negb (slotting x)) (tc_thr cs).
Fixpoint play_apart (L : list tsop) (cs : tconc) (l : list tact) : option tconc :=
  match l with
  | [] => Some cs
  | ACall t :: l' => if is_call t && apart_b cs t then play_apart L (add_call cs t) l' else None
  | AOp n :: l' => match L !! n with Some o => if apart_b cs (op_call o) then play_apart L (add_call cs (op_call o)) l' else None | None => None end
  | AGo j n :: l' => match go E0 X0 cs j n with Some cs' => play_apart L cs' l' | None => None end
  end.
Lemma apart_check cs t : apart_b cs t = true -> slots_apart cs t.
Proof.
  intros H ord si c ->. unfold apart_b in H. simpl in H. apply Forall_forall. intros x Hx. rewrite forallb_forall in H. apply negb_true_iff, H, elem_of_list_In, Hx.
Qed.
Lemma play_apart_reach L l cs cs' : play_apart L cs l = Some cs' -> treach E0 X0 slots_apart cs cs'.
Proof.
  revert cs. induction l as [|[t|n|j n] l IH]; intros cs; simpl; [intros [= ->]; constructor|..].
  - destruct (is_call t && _) eqn:Hc; [|done]. apply andb_true_iff in Hc as [Hc Ha]. intros H. eapply treach_call; [done|by apply apart_check|]. by apply IH.
  - destruct (L !! n) as [o|]; [|done]. destruct (apart_b _ _) eqn:Ha; [|done]. intros H. eapply treach_call; [apply op_call_is|by apply apart_check|]. by apply IH.
  - destruct (go _ _ _ _ _) as [cs1|] eqn:Hg; [|done]. intros H. eapply treach_trans; [by eapply go_reach|]. by apply IH.
Qed.
Definition apart_at (cs : tconc) (l : list tact) : tconc := default tc_empty (play_apart crowd cs l).
Lemma apart_reach cs l : is_Some (play_apart crowd cs l) -> treach E0 X0 slots_apart cs (apart_at cs l).
Proof. unfold apart_at. intros [cs' H]. rewrite H. by eapply play_apart_reach. Qed.
Definition lab0 : tconc := apart_at tc_empty [AOp 0; fin 0; AOp 1; fin 1; AOp 3; AGo 2 2; AOp 6; fin 3; AOp 7; AGo 4 2; ACall (XGet 1001 Finalized); AGo 4 1].
Definition lab1 : tconc := apart_at lab0 [AGo 2 1; AGo 5 1; AGo 4 1; AGo 5 4; ACall (XGpa spl_token_id (Some (by_owner 1002)) Finalized); ACall (XSlot ord0 (SlotInfo 12 11 0) Processed)].
Definition lab2 : tconc := apart_at lab1 [fin 6; fin 2; fin 4; fin 7].
Example C83_example_hyps : treach E0 X0 slots_apart tc_empty lab0 /\ treach E0 X0 slots_apart lab0 lab1 /\ treach E0 X0 slots_apart lab1 lab2 /\
  made lab0 5 (XGet 1001 Finalized) /\ made lab1 6 (XGpa spl_token_id (Some (by_owner 1002)) Finalized) /\
  slots_of <$> gave lab1 5 = Some [11] /\ slots_of <$> gave lab2 6 = Some [11].
Proof.
  split; [apply apart_reach; vm_compute; eauto|]. split; [apply apart_reach; vm_compute; eauto|]. split; [apply apart_reach; vm_compute; eauto|].
  do 2 (split; [apply made_check; by vm_compute|]). split; by vm_compute.
Qed.
(** Two overlapping finalizations: the slot goes back. *)
Definition late : list tsop := [TInit (mintd 1001 50 1 1); TSlot ord0 (SlotInfo 10 9 0) Finalized; TSlot ord0 (SlotInfo 11 10 0) Finalized].
Definition late0 : list tact := [AOp 0; fin 0; AOp 1; AGo 1 2; AOp 2; AGo 2 3; ACall (XGet 1001 Finalized)].
Definition late1 : list tact := late0 ++ [fin 3; AGo 1 1; ACall (XGet 1001 Finalized)].
Definition late2 : list tact := late1 ++ [fin 4].
Lemma late_world : calm_world E0 late.
Proof.
  apply (world_check late [1001]); [done|repeat constructor; simpl; try done; intros m; done|by vm_compute|done|by apply raw_data| |by vm_compute].
  intros ord si c H. unfold late in H. rewrite !elem_of_cons, elem_of_nil in H. destruct_or! H; try done; by injection H as -> -> ->.
Qed.
Theorem C83_overlap_refuted : exists L cs0 cs1 cs2 j k pk b1 b2, calm_world E0 L /\ tidy E0 L /\
  treach E0 X0 (calm_call E0 L) tc_empty cs0 /\ made cs0 j (XGet pk Finalized) /\ treach E0 X0 (calm_call E0 L) cs0 cs1 /\ returned cs1 j (OGet (Some b1)) /\
  made cs1 k (XGet pk Finalized) /\ treach E0 X0 (calm_call E0 L) cs1 cs2 /\ returned cs2 k (OGet (Some b2)) /\ d_slot b1 = 11 /\ d_slot b2 = 10.
Proof.
  exists late, (played false late late0), (played false late late1), (played false late late2), 3%nat, 4%nat, 1001. eexists _, _.
  split; [apply late_world|]. split; [apply tidy_check; [done|by vm_compute]|]. split; [apply played_calm; [done|by vm_compute]|]. split; [apply made_check; by vm_compute|].
  split; [apply played_more; [done|by vm_compute..]|]. split; [apply gave_check; vm_compute; reflexivity|]. split; [apply made_check; by vm_compute|].
  split; [apply played_more; [done|by vm_compute..]|]. split; [apply gave_check; vm_compute; reflexivity|]. done.
Qed.
Print Assumptions C83_overlap_refuted.
