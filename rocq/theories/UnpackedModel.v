(** Snapshots unpacked to a directory: simulate_from_snapshot/src/snapshot_utils/unpacked.rs.
    A directory is the list of its entries in the order in which the file system lists them.  Not modelled: progress tracking (it
    passes the bytes through), file system changes during the call. *)
From Verif Require Import Base DataModel BincodeModel AvecModel.

(** An entry of a directory (or an error while listing it, [None]): its name, and the contents that reading delivers; [None] when
    it cannot be opened.  For an entry of [snapshots] these are the contents of the file of the same name inside of it
    (unpacked.rs 47: [entry.path().join(entry.file_name())]). *)
Definition dirent := option (bytes * option bytes).
(** The directory: whether [snapshots/status_cache] is a file, what [snapshots] and [accounts] contain ([None]: cannot be listed). *)
Record undir := Undir { ud_status : bool; ud_snapshots : option (list dirent); ud_accounts : option (list dirent) }.

(** The first entry whose name is a number, 44-48.  [to_string_lossy] replaces what is not UTF-8 by characters that are no digits. *)
Fixpoint find_manifest (l : list dirent) : option (option bytes) :=
  match l with
  | [] => None
  | None :: l' => find_manifest l'
  | Some (name, c) :: l' => match u64_from_str name with Some _ => Some c | None => find_manifest l' end
  end.
(** Errors of [open]; [NoStatusCache] is not among those of [serr]. *)
Inductive oerr := ONoStatusCache | OErr (e : serr).
Inductive ores (A : Type) := OOk (a : A) | OBad (e : oerr).
Arguments OOk {_} _.
Arguments OBad {_} _.
(** [open], 33-84.  [dec] decodes the manifest. *)
Definition un_open (dec : bytes -> option index_t) (d : undir) : ores index_t :=
  if negb (ud_status d) then OBad ONoStatusCache
  else match ud_snapshots d with
       | None => OBad (OErr EIo)
       | Some l =>
           match find_manifest l with
           | None => OBad (OErr ENoManifest)
           | Some None => OBad (OErr EIo)
           | Some (Some b) => match dec b with Some ix => OOk ix | None => OBad (OErr EBincode) end
           end
       end.

(** [open_append_vec], 106-124: a file that cannot be opened is an error after the lookup in the index. *)
Definition un_file (ix : index_t) (c : option bytes) (slot id : N) : sres avec :=
  match c with
  | Some b => open_append_vec ix b slot id
  | None => match known_len ix slot id with None => SErr EUnexpected | Some _ => SErr EIo end
  end.
(** [iter_streams], 92-104: entries that cannot be listed and names that are no storage file are left out. *)
Definition un_entry (ix : index_t) (e : dirent) : option (sres avec) :=
  match e with
  | None => None
  | Some (name, c) => match parse_name name with Some (slot, id) => Some (un_file ix c slot id) | None => None end
  end.
Definition iter_streams (ix : index_t) (d : undir) : sres (list (sres avec)) :=
  match ud_accounts d with None => SErr EIo | Some l => SOk (omap (un_entry ix) l) end.
(** [flatten_ok] (itertools 0.10.5): the elements of the [Ok] items, errors as they are. *)
Definition flatten_ok {A} (l : list (sres (list A))) : list (sres A) :=
  concat (map (fun r => match r with SOk x => SOk <$> x | SErr e => [SErr e] end) l).
(** [IntoIterator] of [Result]: one element, or none for an error. *)
Definition result_iter {A} (r : sres A) : list A := match r with SOk a => [a] | SErr _ => [] end.
(** [unboxed_iter], 86-90: the second [flatten_ok] iterates over [SnapshotResult<AppendVec>]. *)
Definition un_iter (ix : index_t) (d : undir) : list (sres avec) :=
  flatten_ok (map (fun r => match r with SOk x => SOk (result_iter x) | SErr e => SErr e end) (flatten_ok [iter_streams ix d])).
