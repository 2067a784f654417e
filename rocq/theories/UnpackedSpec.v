(** What a directory entry is. *)
From Verif Require Import Base DataModel AvecModel AvecSpec UnpackedModel.

(** The name of a storage file: <slot>.<id>. *)
Definition named (name : bytes) (slot id : N) : Prop :=
  exists s s', name = s ++ dot :: s' /\ prints s slot /\ prints s' id /\ slot < 2 ^ 64 /\ id < 2 ^ 64.
(** A storage file the manifest lists, that can be read and is long enough (and at most 16 GiB). *)
Definition usable (ix : index_t) (e : dirent) (m : N * N * N) (b : bytes) : Prop :=
  exists name, e = Some (name, Some b) /\ named name m.1.1 m.1.2 /\ listed ix m.1.1 m.1.2 m.2 /\ 0 < lenN b <= 2 ^ 34 /\ m.2 <= lenN b.
(** A storage file that cannot be used: the manifest does not list it, or it cannot be read, or it is too short. *)
Definition unusable (ix : index_t) (e : dirent) : Prop :=
  exists name c slot id, e = Some (name, c) /\ named name slot id /\
    ((forall l len, ix !! slot = Some l -> (id, len) ∉ l) \/ c = None \/
     exists b len, c = Some b /\ listed ix slot id len /\ lenN b < len).
(** Not a storage file at all: nothing in its name that could be read as two numbers. *)
Definition other_name (name : bytes) : Prop := ~ exists a b n m, name = a ++ dot :: b /\
  (decimal a n \/ exists a', a = plus :: a' /\ decimal a' n) /\ (decimal b m \/ exists b', b = plus :: b' /\ decimal b' m).
Definition other (e : dirent) : Prop := exists name c, e = Some (name, c) /\ other_name name.
(** A manifest directory of [snapshots], and an entry that is none. *)
Definition manifest_dir (e : dirent) (b : bytes) : Prop := exists name n, e = Some (name, Some b) /\ prints name n /\ n < 2 ^ 64.
Definition no_number (e : dirent) : Prop :=
  e = None \/ exists name c, e = Some (name, c) /\ ~ exists n, decimal name n \/ exists s, name = plus :: s /\ decimal s n.
