(** Specification vocabulary for the account store. *)
From Verif Require Import Base DataModel FilterModel FilterSpec ByCommitModel ByCommitSpec StoreModel.

(** The version of an account at a commitment, closed accounts included. *)
Definition version_at (st : store) (pk : pubkey) (c : commitment) : option acct :=
  i ← st_index st !! pk; b ← st_accounts st !! i; bc_get b c.
Definition tracked (st : store) (pk : pubkey) : Prop := is_Some (st_index st !! pk).
Definition alive (a : acct) : Prop := 0 < d_lamports a.

(** States reachable by any history, under any (changing) filters. *)
Definition reachable (E : ext) (st : store) : Prop := exists h, run E store_empty h = Done st.

(** Operations on usable inputs: data can be uncompressed, query patterns are well-formed text. *)
Definition usable (E : ext) (a : acct) : Prop := exists d, plain E a d.
Definition op_ok (E : ext) (o : op) : Prop :=
  match o with
  | OUpdate a _ | OInit a => usable E a
  | OGpa _ (Some fl) _ => Forall (decodable_cond E) fl
  | OLoad _ b => forall l, BincodeModel.unbincode_accounts b = Some l -> Forall (usable E) l
  | _ => True
  end.

(** [a] satisfies all conditions of an optional condition list. *)
Definition meets (E : ext) (fl : option (list cond)) (a : acct) : Prop :=
  forall l x, fl = Some l -> x ∈ l -> exists d, plain E a d /\ holds E x d.
(** The recorded length of compressed data is its real length. *)
Definition honest (E : ext) (a : acct) : Prop := exists d, plain E a d /\ data_len (d_data a) = lenN d.

(** Account [pk] is recorded as written in slot [s]. *)
Definition wrote (st : store) (s : N) (pk : pubkey) : Prop :=
  exists i ss, st_index st !! pk = Some i /\ st_slots st !! s = Some ss /\ i ∈ ss_accounts ss.

(** The parent of a slot when [si] is announced: the announced one for the announced slot, the
    recorded one for the others. *)
Definition parent_of (sl : gmap N status) (si : slot_info) (s : N) : option N :=
  if s =? si_slot si then Some (si_parent si) else ss ← sl !! s; ss_parent ss.
(** Slots that announcement [si] at commitment [c] commits: the announced slot and its ancestors,
    up to the first that is unknown or already has the commitment. *)
Inductive on_chain (sl : gmap N status) (si : slot_info) (c : commitment) : N -> Prop :=
| chain_start ss : sl !! si_slot si = Some ss -> ss_commit ss <> c -> on_chain sl si c (si_slot si)
| chain_up s p ss : on_chain sl si c s -> c <> Processed -> parent_of sl si s = Some p ->
    sl !! p = Some ss -> ss_commit ss <> c -> on_chain sl si c p.
(** Parents have smaller slot numbers along the chain. *)
Definition descending (sl : gmap N status) (si : slot_info) (c : commitment) : Prop :=
  forall s p, on_chain sl si c s -> parent_of sl si s = Some p -> p < s.

(** The history operations deliver. *)
Definition delivers (o : op) (a : acct) : Prop :=
  match o with
  | OUpdate a' _ | OInit a' => a' = a
  | OLoad _ b => exists l, BincodeModel.unbincode_accounts b = Some l /\ a ∈ l
  | _ => False
  end.

(** The commitment recorded for a slot, if any. *)
Definition slot_commit (st : store) (s : N) : option commitment := ss_commit <$> st_slots st !! s.
(** [pk] is tracked before, between and after the operations of [h] started in [st]. *)
Definition tracked_during (E : ext) (st : store) (h : list (filt * op)) (pk : pubkey) : Prop :=
  forall h1 h2 st1, h = h1 ++ h2 -> run E st h1 = Done st1 -> tracked st1 pk.

(** Parent links as announced in a history, and ancestry. *)
Definition announced (h : list (filt * op)) (s p : N) : Prop :=
  exists F si c, (F, OSlot si c) ∈ h /\ si_slot si = s /\ si_parent si = p.
Definition ancestor (h : list (filt * op)) (s t : N) : Prop := rtc (announced h) s t.
(** Accounts with a filter store that admits everything and contains every query. *)
Definition admit_all : filt := Filt (fun _ => true) (fun _ => true).
