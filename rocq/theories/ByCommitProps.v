(** Property theorems C10-C14 (the versions kept for one account). *)
From Verif Require Import Base SMap DataModel FilterModel FilterSpec FilterProofs FilterProps
  ByCommitModel ByCommitSpec ByCommitProofs.

Definition ver (s w : N) : acct := mk_acct 5 7 1 (bs [1; 8]) s w.
Definition ex_hist : list abc_op :=
  [AUpdate (ver 10 1) Processed; AUpdate (ver 10 3) Confirmed; AUpdate (ver 12 2) Processed;
   APromote 12 Confirmed; AUpdate (ver 9 7) Finalized; APromote 10 Finalized; AUpdate (ver 13 1) Processed].

(** C10: finalized needs confirmed, and finalized slot <= confirmed slot <= processed slot. *)
Theorem C10_commitment_ladder : forall h : list abc_op,
  let b := abc_run bc_empty h in
  (forall y, bc_get b Finalized = Some y -> exists x, bc_get b Confirmed = Some x /\ d_slot y <= d_slot x) /\
  (forall x, bc_get b Confirmed = Some x -> exists p, bc_get b Processed = Some p /\ d_slot x <= d_slot p).
Proof. exact (fun h => bc_ladder _ (bc_ok_run _ h bc_ok_empty)). Qed.
Print Assumptions C10_commitment_ladder.
(** The entries created by [new] and [initialize] are histories of length one. *)
Theorem C10_new_entries_are_histories : forall a c,
  bc_new a c = abc_run bc_empty [AUpdate a c] /\ bc_initialize a = abc_run bc_empty [AUpdate a Finalized].
Proof. exact (fun a c => conj (bc_new_update a c) (bc_initialize_update a)). Qed.
Print Assumptions C10_new_entries_are_histories.
Example C10_example_hyps :
  let b := abc_run bc_empty ex_hist in
  bc_get b Finalized = Some (ver 10 3) /\ bc_get b Confirmed = Some (ver 12 2) /\ bc_get b Processed = Some (ver 13 1).
Proof. by vm_compute. Qed.
(** The stronger reading (slot, then write version) is false: a promotion compares slots only,
    so the finalized version can be a later write of the slot than the confirmed one. *)
Theorem C10_write_version_ladder_refuted : exists h y x,
  bc_get (abc_run bc_empty h) Finalized = Some y /\ bc_get (abc_run bc_empty h) Confirmed = Some x /\
  ~ version_le y x.
Proof.
  exists [AUpdate (ver 10 1) Confirmed; AUpdate (ver 10 2) Processed; APromote 10 Finalized], (ver 10 2), (ver 10 1).
  split; [by vm_compute|]. split; [by vm_compute|]. unfold version_le. simpl. lia.
Qed.
Print Assumptions C10_write_version_ladder_refuted.

(** C11: at every commitment, (slot, write version) never decreases. *)
Theorem C11_versions_never_go_back : forall (h : list abc_op) (o : abc_op) c a,
  bc_get (abc_run bc_empty h) c = Some a ->
  exists a', bc_get (abc_run bc_empty (h ++ [o])) c = Some a' /\ version_le a a'.
Proof.
  intros h o c a H. rewrite abc_run_app. simpl. by apply bc_get_mono; [apply bc_ok_run, bc_ok_empty|].
Qed.
Print Assumptions C11_versions_never_go_back.
Example C11_example_hyps : bc_get (abc_run bc_empty ex_hist) Confirmed = Some (ver 12 2) /\
  bc_get (abc_run bc_empty (ex_hist ++ [APromote 13 Finalized])) Confirmed = Some (ver 13 1).
Proof. by vm_compute. Qed.

(** C12: the newest version delivered at that commitment or stronger is what is read ... *)
Theorem C12_newest_delivery_wins : forall (h : list abc_op) c,
  only_updates h ->
  match bc_get (abc_run bc_empty h) c with
  | Some a => newest (delivered h c) a
  | None => forall a, ~ delivered h c a
  end.
Proof. exact newest_wins. Qed.
Print Assumptions C12_newest_delivery_wins.
(** ... whatever the order of delivery. *)
Theorem C12_delivery_order_irrelevant : forall (h h' : list abc_op) c,
  only_updates h -> coherent h -> Permutation h h' ->
  bc_get (abc_run bc_empty h) c = bc_get (abc_run bc_empty h') c.
Proof. exact order_irrelevant. Qed.
Print Assumptions C12_delivery_order_irrelevant.
Definition ex_deliveries : list abc_op :=
  [AUpdate (ver 10 3) Confirmed; AUpdate (ver 10 1) Processed; AUpdate (ver 9 7) Finalized; AUpdate (ver 12 2) Processed].
Example C12_example_hyps : only_updates ex_deliveries /\ coherent ex_deliveries /\
  bc_get (abc_run bc_empty ex_deliveries) Confirmed = Some (ver 10 3) /\
  bc_get (abc_run bc_empty (rev ex_deliveries)) Confirmed = Some (ver 10 3).
Proof.
  split_and!; [| |by vm_compute..].
  - intros o Ho. unfold ex_deliveries in Ho. rewrite !elem_of_cons, elem_of_nil in Ho. naive_solver.
  - intros a c a' c' H1 H2. unfold ex_deliveries in H1, H2. rewrite !elem_of_cons, elem_of_nil in H1, H2.
    destruct_or?; simplify_eq; done.
Qed.

(** C13: promotion of slot [s] publishes the newest write of the slot, unless something from the
    same or a later slot is already published; without a write in the slot nothing changes. *)
Theorem C13_promotion_publishes_slot_data : forall h s c b' r,
  bc_promote (abc_run bc_empty h) s c = (b', r) -> c <> Processed -> not_finalized_past h s ->
  (forall a, slot_write h s a ->
     (coherent h ->
      bc_get b' c = match bc_get (abc_run bc_empty h) c with
                    | Some x => if d_slot x <? s then Some a else Some x
                    | None => Some a end) /\
     is_Some (bc_get b' c)) /\
  ((forall a c', AUpdate a c' ∈ h -> d_slot a <> s) ->
   forall c', bc_get b' c' = bc_get (abc_run bc_empty h) c' /\ r = None).
Proof. exact (fun h s c b' r => promotion_exact h s c _ b' r eq_refl). Qed.
Print Assumptions C13_promotion_publishes_slot_data.
(** The newest processed version is kept; the report names the new published version and the
    one it replaced, and there is no report exactly when nothing was published. *)
Theorem C13_promotion_report_exact : forall h s c b' r,
  bc_promote (abc_run bc_empty h) s c = (b', r) ->
  bc_get b' Processed = bc_get (abc_run bc_empty h) Processed /\
  match r with
  | Some (a, prev) => bc_get b' c = Some a /\ bc_get (abc_run bc_empty h) c = prev /\ d_slot a = s /\
                      (forall x, prev = Some x -> d_slot x < s)
  | None => bc_get b' c = bc_get (abc_run bc_empty h) c
  end /\
  (c <> Finalized -> bc_get b' Finalized = bc_get (abc_run bc_empty h) Finalized) /\
  (c = Processed -> bc_get b' Confirmed = bc_get (abc_run bc_empty h) Confirmed) /\
  (c = Finalized -> forall x, bc_get b' Confirmed = Some x ->
     bc_get (abc_run bc_empty h) Confirmed = Some x \/
     (d_slot x = s /\ forall y, bc_get (abc_run bc_empty h) Confirmed = Some y -> d_slot y < s)).
Proof. exact (fun h s c b' r => promotion_report _ s c b' r (bc_ok_run _ h bc_ok_empty)). Qed.
Print Assumptions C13_promotion_report_exact.
Example C13_example_hyps : not_finalized_past ex_hist 13 /\ slot_write ex_hist 13 (ver 13 1) /\
  (bc_promote (abc_run bc_empty ex_hist) 13 Confirmed).2 = Some (ver 13 1, Some (ver 12 2)).
Proof.
  split_and!; [| |by vm_compute].
  - intros s H. unfold ex_hist in H. rewrite !elem_of_cons, elem_of_nil in H. destruct_or?; simplify_eq; lia.
  - split.
    + split; [|done]. exists Processed. unfold ex_hist. rewrite !elem_of_cons. naive_solver.
    + intros a [[c H] Hs]. unfold ex_hist in H. rewrite !elem_of_cons, elem_of_nil in H.
      destruct_or?; simplify_eq; try done. apply version_le_refl.
Qed.

(** C14: reading with conditions = reading without, when the conditions hold on the data. *)
Theorem C14_filtered_read_agrees : forall E b c fl a d,
  Forall (decodable_cond E) fl -> bc_get b c = Some a -> plain E a d -> data_len (d_data a) = lenN d ->
  exists r, bc_get_filtered E b c fl = Done r /\
    (is_Some r <-> forall x, x ∈ fl -> holds E x d) /\
    (forall a', r = Some a' -> same_account E a' a /\ (fl <> [] -> d_data a' = DRaw d)).
Proof. exact filtered_read. Qed.
Print Assumptions C14_filtered_read_agrees.
Theorem C14_nothing_to_read : forall E b c fl,
  bc_get b c = None -> bc_get_filtered E b c fl = Done None.
Proof. intros E b c fl H. unfold bc_get_filtered. by rewrite H. Qed.
Print Assumptions C14_nothing_to_read.
Example C14_example_hyps :
  let a := Acct 5 (Account 3 (DZstd (bs [1;8;9]) 3) 7 false 0) 10 1 in
  let fl := [MemcmpC (Memcmp 1 (MBase58 (bs [8;9]))); Datasize 3] in
  Forall (decodable_cond ext_sample) fl /\ bc_get (bc_new a Confirmed) Confirmed = Some a /\
  plain ext_sample a (bs [1;8;9]) /\
  bc_get_filtered ext_sample (bc_new a Confirmed) Confirmed fl
  = Done (Some (Acct 5 (Account 3 (DRaw (bs [1;8;9])) 7 false 0) 10 1)).
Proof. split_and!; [|by vm_compute..]. repeat constructor; simpl; eauto. Qed.
