(** Specification vocabulary for accounts that change their owner. *)
From Verif Require Import Base DataModel FilterModel BincodeModel ByCommitModel ByCommitSpec StoreModel StoreSpec.

(** [a] is among the accounts that a history delivers. *)
Definition delivered_in (h : list (filt * op)) (a : acct) : Prop := exists F o, (F, o) ∈ h /\ delivers o a.
(** A live account does not return to an owner it had: among the live versions of one pubkey, ordered by slot,
    the versions of one owner are together. *)
Definition owners_settle (D : acct -> Prop) : Prop := forall x y z, D x -> D y -> D z ->
  d_pubkey x = d_pubkey y -> d_pubkey y = d_pubkey z -> alive x -> alive y -> alive z ->
  d_slot x <= d_slot y -> d_slot y <= d_slot z -> d_owner x = d_owner z -> d_owner y = d_owner x.
(** A closed version has another owner than the live versions of the pubkey. *)
Definition closed_apart (D : acct -> Prop) : Prop := forall x y, D x -> D y -> d_pubkey x = d_pubkey y ->
  alive x -> ~ alive y -> d_owner x <> d_owner y.
(** The commitment at which a delivery for a tracked account takes effect: finalized if delivered so, else the recorded
    commitment of its slot if there is one. *)
Definition applied_at (st : store) (a : acct) (c : commitment) : commitment :=
  match c with Finalized => Finalized | _ => default c (slot_commit st (d_slot a)) end.
(** A delivery that changes the owner of a tracked account comes in time: it takes effect as processed, or at a commitment at
    which the account is already shown, and as finalized only if it is newer than the finalized version (or of its owner). *)
Definition in_time (st : store) (a : acct) (c : commitment) : Prop :=
  forall p, version_at st (d_pubkey a) Processed = Some p ->
  d_owner a = d_owner p \/ applied_at st a c = Processed \/
  exists y, version_at st (d_pubkey a) (applied_at st a c) = Some y /\
    (applied_at st a c = Finalized -> d_owner a = d_owner y \/ ~ version_le a y).
Fixpoint load_in_time (F : filt) (st : store) (l : list acct) : Prop :=
  match l with
  | [] => True
  | a :: l => in_time st a Finalized /\ forall st', init_account F st a = Done st' -> load_in_time F st' l
  end.
Definition op_in_time (F : filt) (st : store) (o : op) : Prop :=
  match o with
  | OUpdate a c => in_time st a c
  | OInit a => in_time st a Finalized
  | OLoad _ b => forall l, unbincode_accounts b = Some l -> load_in_time F st l
  | _ => True
  end.
Definition run_in_time (E : ext) (h : list (filt * op)) : Prop :=
  forall h1 F o h2 st, h = h1 ++ (F, o) :: h2 -> run E store_empty h1 = Done st -> op_in_time F st o.
