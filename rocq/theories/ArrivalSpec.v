(** Vocabulary for comparing two runs of the account store by what callers are told. *)
From Verif Require Import Base DataModel FilterModel BincodeModel StoreModel StoreSpec.

(** The answers given during a history. *)
Fixpoint told (E : ext) (st : store) (h : list (filt * op)) : res (list outcome) :=
  match h with
  | [] => Done []
  | (F, o) :: h' => '(st', r) ← step E F st o; rs ← told E st' h'; Done (r :: rs)
  end.
(** Same answer, where lists of accounts count as the same if they differ only in order (a snapshot is the text of such a list). *)
Definition same_told (r r' : outcome) : Prop :=
  match r, r' with
  | RGpa (ROk l), RGpa (ROk l') | RSlot l, RSlot l' => Permutation l l'
  | RSnap (ROk b), RSnap (ROk b') => exists l l', b = bincode_accounts l /\ b' = bincode_accounts l' /\ Permutation l l'
  | _, _ => r = r'
  end.
(** No caller can tell the two stores apart by [h]: the same answers, or a panic of both. *)
Definition indistinct (E : ext) (st st' : store) (h : list (filt * op)) : Prop :=
  match told E st h, told E st' h with
  | Done l, Done l' => Forall2 same_told l l'
  | Panic, Panic => True
  | _, _ => False
  end.
Definition lists (o : op) : Prop := match o with OGpa _ _ _ | OSnap _ => True | _ => False end.

(** A batch of updates as the source sends them, each with the filters of its time, all at one level. *)
Definition batch (c : commitment) (us : list (filt * acct)) : list (filt * op) := map (fun u => (u.1, OUpdate u.2 c)) us.
(** Slot and write version tell the updates of one account apart. *)
Definition told_apart (us : list (filt * acct)) : Prop :=
  forall u v, u ∈ us -> v ∈ us -> d_pubkey u.2 = d_pubkey v.2 -> d_slot u.2 = d_slot v.2 -> d_wv u.2 = d_wv v.2 -> u.2 = v.2.
(** The update is heard: its account is tracked or wanted; and its slot is unknown or known at the level of the update. *)
Definition heard (c : commitment) (st : store) (u : filt * acct) : Prop :=
  (tracked st (d_pubkey u.2) \/ fl_sat u.1 u.2 = true) /\ (forall k, slot_commit st (d_slot u.2) = Some k -> k = c).
(** Each account of the batch keeps one owner, that of its version in the store. *)
Definition one_owner (c : commitment) (st : store) (us : list (filt * acct)) : Prop :=
  (forall u v, u ∈ us -> v ∈ us -> d_pubkey u.2 = d_pubkey v.2 -> d_owner u.2 = d_owner v.2) /\
  (forall u x, u ∈ us -> version_at st (d_pubkey u.2) c = Some x -> d_owner x = d_owner u.2).

(** The slots a notification looks at: the announced one and the parents of those it commits. *)
Inductive visited (sl : gmap N status) (si : slot_info) (c : commitment) : N -> Prop :=
| v_start : visited sl si c (si_slot si)
| v_up s p : on_chain sl si c s -> c <> Processed -> parent_of sl si s = Some p -> visited sl si c p.
(** The slot is not known above processed. *)
Definition still_processed (st : store) (s : N) : Prop := forall k, slot_commit st s = Some k -> k = Processed.
