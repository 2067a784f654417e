(** Specification: orderly streams of which only a part is of interest (C99). *)
From Verif Require Import Base DataModel FilterModel FilterSpec ByCommitModel ByCommitSpec StoreModel StoreSpec LedgerSpec.

(** [satisfies] and [contains_filter] of a [SimpleFilterStore] as the account store uses them, common/src/simple_filter_store.rs 157-175 and
    account_storage/src/inmemory_account_store.rs 160-162, 301-306.  A panic is taken as [false]; the theorems exclude it. *)
Definition configured (E : ext) (fs : fstore) : filt :=
  Filt (fun a => match satisfies E fs a with Done b => b | Panic => false end) (contains_filter fs).
(** All calls find the same filters. *)
Definition with_filters (F : filt) (h : list op) : list (filt * op) := map (pair F) h.

(** Account [pk] comes to be of interest: none of its versions delivered at first is wanted; those delivered from some point on are newer than these,
    and either they are all wanted and never closed, or all wanted and of one owner, or wanted while alive and closed at most once: the closing is the last
    version delivered and the newest.  (An account that is never of interest stays in the first part.) *)
Definition versions_in (h : list op) (pk : pubkey) (a : acct) : Prop := exists o, o ∈ h /\ delivers o a /\ d_pubkey a = pk.
Definition follows (W : acct -> Prop) (h : list op) (pk : pubkey) : Prop :=
  exists h1 h2, h = h1 ++ h2 /\ (forall a, versions_in h1 pk a -> ~ W a) /\ (forall a b, versions_in h1 pk a -> versions_in h2 pk b -> ~ version_le b a) /\
  (((forall a, versions_in h2 pk a -> W a) /\
    ((forall a, versions_in h2 pk a -> alive a) \/ (forall a b, versions_in h2 pk a -> versions_in h2 pk b -> d_owner a = d_owner b))) \/
   ((forall a, versions_in h2 pk a -> alive a -> W a) /\
    (forall g1 o g2 a, h2 = g1 ++ o :: g2 -> delivers o a -> d_pubkey a = pk -> ~ alive a ->
       (forall b, versions_in g1 pk b -> ~ version_le a b) /\ (forall b, ~ versions_in g2 pk b)))).
