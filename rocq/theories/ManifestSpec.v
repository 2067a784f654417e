(** What a validator writes into a manifest. *)
From Verif Require Import Base DataModel AvecModel.

(** A list with its length in front. *)
Definition seq_of (l : list bytes) : bytes := le 8 (lenN l) ++ concat l.
(** The files of one slot: the slot, then id and length of each file. *)
Definition files_of (e : N * list (N * N)) : bytes := le 8 e.1 ++ seq_of ((fun f => le 8 f.1 ++ le 8 f.2) <$> e.2).
(** The part that is needed: all slots with their files (in any order), the write version, the slot, hashes and statistics. *)
Definition index_part (l : list (N * list (N * N))) (wv slot : N) (info : bytes) : bytes :=
  seq_of (files_of <$> l) ++ le 8 wv ++ le 8 slot ++ info.
Definition files_ok (l : list (N * list (N * N))) : Prop :=
  NoDup l.*1 /\ lenN l < 2 ^ 64 /\
  Forall (fun e => e.1 < 2 ^ 64 /\ lenN e.2 < 2 ^ 64 /\ Forall (fun f => f.1 < 2 ^ 64 /\ f.2 < 2 ^ 64) e.2) l.
(** The index says what the list says. *)
Definition says (ix : index_t) (l : list (N * list (N * N))) : Prop := forall slot fs, ix !! slot = Some fs <-> (slot, fs) ∈ l.
(** The reader of the bank part consumes [h], whatever follows, and accepts nothing shorter. *)
Definition bank_reads (bank : bytes -> option bytes) (h : bytes) : Prop :=
  (forall r, bank (h ++ r) = Some r) /\ forall k, (k < length h)%nat -> bank (take k h) = None.
