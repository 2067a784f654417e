(** Specification: what an orderly stream says about the ledger, independent of how the store works. *)
From Verif Require Import Base DataModel FilterModel ByCommitModel ByCommitSpec StoreModel StoreSpec.

(** What is known of the ledger: the accounts loaded at the start, the first slot, the parent announced for each slot, the writes of the
    slots, and the newest confirmed and finalized slot. *)
Record ledger := Ledger {
  lg_base : list acct; lg_root : option N; lg_parent : gmap N N; lg_writes : list acct; lg_conf : option N; lg_fin : option N }.
Definition no_ledger : ledger := Ledger [] None ∅ [] None None.

Definition known (L : ledger) (s : N) : Prop := is_Some (lg_parent L !! s).
(** Slot [s] is [t] or one of its announced ancestors. *)
Definition branch (L : ledger) (t s : N) : Prop := rtc (fun x y => lg_parent L !! x = Some y) t s /\ known L s.
Definition committed (L : ledger) (s : N) : Prop := exists t, lg_conf L = Some t /\ branch L t s.

(** One event of an orderly stream: accounts are loaded before the first slot and are older than it; every further slot is announced once with
    a parent that is known (and again at will while it is not confirmed); accounts of a slot are delivered before the slot is confirmed; slots are
    confirmed along one branch, and finalized, possibly several at a time, when they are confirmed.  A confirmation may skip slots (they are
    confirmed with it) unless the newest confirmed slot is already final; the first one is that of the first slot.  Reads happen at any time. *)
Inductive event (L : ledger) : op -> ledger -> Prop :=
| ev_get pk c : event L (OGet pk c) L
| ev_gpa p fl c : event L (OGpa p fl c) L
| ev_snap p : event L (OSnap p) L
| ev_load a : lg_root L = None ->
    event L (OInit a) (Ledger (lg_base L ++ [a]) None (lg_parent L) (lg_writes L) (lg_conf L) (lg_fin L))
| ev_root si : lg_root L = None -> si_parent si < si_slot si -> (forall a, a ∈ lg_base L -> d_slot a < si_slot si) ->
    event L (OSlot si Processed)
      (Ledger (lg_base L) (Some (si_slot si)) (<[si_slot si := si_parent si]> (lg_parent L)) (lg_writes L) (lg_conf L) (lg_fin L))
| ev_slot si : ~ known L (si_slot si) -> known L (si_parent si) -> si_parent si < si_slot si ->
    event L (OSlot si Processed)
      (Ledger (lg_base L) (lg_root L) (<[si_slot si := si_parent si]> (lg_parent L)) (lg_writes L) (lg_conf L) (lg_fin L))
| ev_slot_again si : lg_parent L !! si_slot si = Some (si_parent si) -> ~ committed L (si_slot si) -> event L (OSlot si Processed) L
| ev_write a : known L (d_slot a) -> ~ committed L (d_slot a) ->
    event L (OUpdate a Processed) (Ledger (lg_base L) (lg_root L) (lg_parent L) (lg_writes L ++ [a]) (lg_conf L) (lg_fin L))
| ev_confirm si : lg_parent L !! si_slot si = Some (si_parent si) ->
    match lg_conf L with
    | None => lg_root L = Some (si_slot si)
    | Some t => branch L (si_parent si) t /\ (si_parent si = t \/ lg_fin L <> Some t)
    end ->
    event L (OSlot si Confirmed) (Ledger (lg_base L) (lg_root L) (lg_parent L) (lg_writes L) (Some (si_slot si)) (lg_fin L))
| ev_confirm_again si : lg_parent L !! si_slot si = Some (si_parent si) -> committed L (si_slot si) ->
    (forall f, lg_fin L = Some f -> f < si_slot si) -> event L (OSlot si Confirmed) L
| ev_finalize si : lg_parent L !! si_slot si = Some (si_parent si) -> committed L (si_slot si) ->
    (forall f, lg_fin L = Some f -> f < si_slot si) ->
    event L (OSlot si Finalized) (Ledger (lg_base L) (lg_root L) (lg_parent L) (lg_writes L) (lg_conf L) (Some (si_slot si))).
Inductive orderly : list (filt * op) -> ledger -> Prop :=
| od_nil : orderly [] no_ledger
| od_snoc h L F o L' : orderly h L -> event L o L' -> orderly (h ++ [(F, o)]) L'.
(** The same, but every confirmation may skip slots. *)
Inductive orderly_skip : list (filt * op) -> ledger -> Prop :=
| os_nil : orderly_skip [] no_ledger
| os_snoc h L F o L' : orderly_skip h L -> event L o L' -> orderly_skip (h ++ [(F, o)]) L'
| os_skip h L F si : orderly_skip h L -> lg_parent L !! si_slot si = Some (si_parent si) -> ~ committed L (si_slot si) ->
    (forall t, lg_conf L = Some t -> branch L (si_slot si) t) ->
    orderly_skip (h ++ [(F, OSlot si Confirmed)]) (Ledger (lg_base L) (lg_root L) (lg_parent L) (lg_writes L) (Some (si_slot si)) (lg_fin L)).

(** Versions of an account that count at a commitment: those loaded, and the writes of the slots on the branch; all writes for processed. *)
Definition counts (L : ledger) (c : commitment) (a : acct) : Prop :=
  a ∈ lg_base L \/ (a ∈ lg_writes L /\
    match c with
    | Processed => True
    | Confirmed => exists t, lg_conf L = Some t /\ branch L t (d_slot a)
    | Finalized => exists t, lg_fin L = Some t /\ branch L t (d_slot a)
    end).
Definition latest (P : acct -> Prop) (o : option acct) : Prop :=
  match o with Some x => newest P x | None => forall a, ~ P a end.
(** [o] is the state of the account in the ledger. *)
Definition in_ledger (L : ledger) (pk : pubkey) (c : commitment) (o : option acct) : Prop :=
  latest (fun a => counts L c a /\ d_pubkey a = pk) o.

(** The account is of interest all the time, and it is never closed or never changes its owner. *)
Definition steady (h : list (filt * op)) (pk : pubkey) : Prop :=
  (forall F o F' o' a, (F, o) ∈ h -> (F', o') ∈ h -> delivers o' a -> d_pubkey a = pk -> fl_sat F a = true) /\
  ((forall F o a, (F, o) ∈ h -> delivers o a -> d_pubkey a = pk -> alive a) \/
   (forall F o a F' o' a', (F, o) ∈ h -> (F', o') ∈ h -> delivers o a -> delivers o' a' -> d_pubkey a = pk -> d_pubkey a' = pk -> d_owner a = d_owner a')).
(** The account is of interest while it is alive; it may change its owner, and it may be closed once and for all: its closing is the last version
    delivered, and the newest one. *)
Definition closes_once (h : list (filt * op)) (pk : pubkey) : Prop :=
  (forall F o F' o' a, (F, o) ∈ h -> (F', o') ∈ h -> delivers o' a -> d_pubkey a = pk -> alive a -> fl_sat F a = true) /\
  (forall h1 F o h2 a, h = h1 ++ (F, o) :: h2 -> delivers o a -> d_pubkey a = pk -> ~ alive a ->
     (forall F' o' b, (F', o') ∈ h1 -> delivers o' b -> d_pubkey b = pk -> ~ version_le a b) /\
     (forall F' o' b, (F', o') ∈ h2 -> delivers o' b -> d_pubkey b <> pk)).

(** Slot and write version tell the versions of an account apart. *)
Definition versions_differ (h : list (filt * op)) : Prop := forall F o a F' o' b, (F, o) ∈ h -> (F', o') ∈ h -> delivers o a -> delivers o' b ->
  d_pubkey a = d_pubkey b -> d_slot a = d_slot b -> d_wv a = d_wv b -> a = b.
(** An account loaded twice at the start is loaded in order, unless its owner is the same. *)
Definition loads_in_order (h : list (filt * op)) : Prop := forall h1 F a h2 F' o b, h = h1 ++ (F, OInit a) :: h2 -> (F', o) ∈ h1 -> delivers o b ->
  d_pubkey a = d_pubkey b -> d_owner a = d_owner b \/ ~ version_le a b.
