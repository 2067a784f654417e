(** Storage files of validator snapshots and their extraction from an archive:
    simulate_from_snapshot/src/snapshot_utils/{append_vec.rs, mod.rs, archived.rs, unpacked.rs} and the loop of
    simulate_from_snapshot/src/main.rs that feeds them to the token storage.
    Not modelled: memory mapping (a map is a byte string), out of memory, tar and zstd decoding (an archive is the list of its
    entries, any of which may be an error), the rest of the manifest (the decoder of the accounts index is an argument). *)
From Verif Require Import Base DataModel BincodeModel FilterModel StoreModel TokenModel SplModel TokenUtilsModel TokenPendModel TokenStoreModel.

(** [usize] and [u64] are 64 bit. *)
Definition two64 : N := 2 ^ 64.
(** [MAXIMUM_APPEND_VEC_FILE_SIZE] (solana-accounts-db 1.18.26 append_vec.rs): 16 GiB. *)
Definition max_file_size : N := 16 * 1024 * 1024 * 1024.
(** [u64_align!] (solana-accounts-db accounts_file.rs): the next multiple of 8; the addition panics on overflow (debug build). *)
Definition u64_align (n : N) : res N := if n + 7 <? two64 then Done ((n + 7) / 8 * 8) else Panic.

(** [AppendVec], append_vec.rs 69-81. *)
Record avec := AVec { av_map : bytes; av_len : N; av_size : N; av_slot : N }.
(** [StoredAccountMeta], 42-51, with [StoredMeta] (write version, data length, address) and [AccountMeta] (lamports, rent epoch,
    owner, executable) of solana-accounts-db account_storage/meta.rs.  The executable flag is kept as the byte in the file: a
    byte other than 0 and 1 is not a value of [bool]. *)
Record stored := Stored {
  sm_wv : N; sm_dlen : N; sm_pubkey : pubkey;
  am_lamports : N; am_rent : N; am_owner : pubkey; am_exec : byte;
  st_data : bytes; st_off : N; st_size : N; st_hash : bytes }.

(** [io::Result] and [SnapshotResult], mod.rs 21-37; the texts of the errors are dropped. *)
Inductive serr := EIo | EBincode | ENoManifest | EUnexpected.
Inductive sres (A : Type) := SOk (a : A) | SErr (e : serr).
Arguments SOk {_} _.
Arguments SErr {_} _.
#[global] Instance serr_eq_dec : EqDecision serr.
Proof. solve_decision. Defined.

(** [sanitize_len_and_size], append_vec.rs 84-106. *)
Definition sanitize (len size : N) : sres unit :=
  if size =? 0 then SErr EIo
  else if max_file_size <? size then SErr EIo
  else if size <? len then SErr EIo
  else SOk tt.
(** [new_from_file], 125-156: the file exists and its contents are [b]. *)
Definition new_from_file (b : bytes) (len slot : N) : sres avec :=
  match sanitize len (lenN b) with
  | SOk _ => SOk (AVec b len (lenN b) slot)
  | SErr e => SErr e
  end.
(** [new_from_reader], 158-171: an anonymous map of [len] zeros, overwritten by what the reader delivers, at most [len] bytes. *)
Definition new_from_reader (b : bytes) (len slot : N) : sres avec :=
  SOk (AVec (resize (N.to_nat len) "000"%byte b) len len slot).

(** [self.map[offset..offset+size]]: out of range is a panic. *)
Definition index (m : bytes) (off size : N) : res bytes :=
  if off + size <=? lenN m then Done (take (N.to_nat size) (drop (N.to_nat off) m)) else Panic.
(** [get_slice], 177-191. *)
Definition get_slice (v : avec) (off size : N) : res (option (bytes * N)) :=
  let next := off + size in
  if (two64 <=? next) || (av_len v <? next) then Done None
  else
    d ← index (av_map v) off size;
    next' ← u64_align next;
    Done (Some (d, next')).
(** [get_account], 207-224.  [get_type] (196-203) is [get_slice] of 48, 56 and 32 bytes ([StoredMeta], [AccountMeta], [Hash];
    [repr(C)]); [meta.data_len as usize] is the identity. *)
Definition get_account (v : avec) (off : N) : res (option (stored * N)) :=
  o ← get_slice v off 48;
  match o with
  | None => Done None
  | Some (meta, next) =>
    o ← get_slice v next 56;
    match o with
    | None => Done None
    | Some (ameta, next) =>
      o ← get_slice v next 32;
      match o with
      | None => Done None
      | Some (hash, next) =>
        let dlen := unle (take 8 (drop 8 meta)) in
        o ← get_slice v next dlen;
        match o with
        | None => Done None
        | Some (d, next) =>
            Done (Some (Stored (unle (take 8 meta)) dlen (unle (drop 16 meta))
                          (unle (take 8 ameta)) (unle (take 8 (drop 8 ameta))) (unle (take 32 (drop 16 ameta))) (nth 48 ameta "000"%byte)
                          d off (next - off) hash, next))
        end
      end
    end
  end.

(** [append_vec_iter], mod.rs 56-67: the handles, that is their offsets.  [None]: out of fuel. *)
Fixpoint av_handles (fuel : nat) (v : avec) (off : N) : option (res (list N)) :=
  match fuel with
  | O => None
  | S k =>
      match get_account v off with
      | Panic => Some Panic
      | Done None => Some (Done [])
      | Done (Some (_, next)) =>
          match av_handles k v next with
          | Some (Done l) => Some (Done (off :: l))
          | r => r
          end
      end
  end.
(** [StoredAccountMetaHandle::access], mod.rs 79-81. *)
Definition access (v : avec) (off : N) : res (option stored) :=
  o ← get_account v off; Done (match o with Some (s, _) => Some s | None => None end).
(** [for handle in append_vec_iter(v) { let stored = handle.access().unwrap(); ... }], main.rs 128-129. *)
Fixpoint accesses (v : avec) (l : list N) : res (list stored) :=
  match l with
  | [] => Done []
  | off :: l' => o ← access v off; s ← unwrap o; r ← accesses v l'; Done (s :: r)
  end.
Definition av_accounts (fuel : nat) (v : avec) : option (res (list stored)) :=
  match av_handles fuel v 0 with
  | None => None
  | Some r => Some (l ← r; accesses v l)
  end.

(** ** File names *)
(** ASCII digit. *)
Definition digit (b : byte) : option N := if (48 <=? b2n b) && (b2n b <=? 57) then Some (b2n b - 48) else None.
Fixpoint digits (acc : N) (l : bytes) : option N :=
  match l with
  | [] => Some acc
  | b :: l' => match digit b with
               | Some d => if acc * 10 + d <? two64 then digits (acc * 10 + d) l' else None
               | None => None
               end
  end.
(** [u64::from_str] (core::num): an optional plus sign, then at least one digit, no overflow. *)
Definition u64_from_str (l : bytes) : option N :=
  match l with
  | [] => None
  | b :: l' => if b2n b =? 43 then (match l' with [] => None | _ => digits 0 l' end) else digits 0 l
  end.
(** [splitn(2, '.')]: the part before the first dot, and the rest if there is one. *)
Fixpoint split_dot (l : bytes) : bytes * option bytes :=
  match l with
  | [] => ([], None)
  | b :: l' => if b2n b =? 46 then ([], Some l') else let '(x, y) := split_dot l' in (b :: x, y)
  end.
(** [parse_append_vec_name], mod.rs 45-54.  [to_str] rejects names that are not UTF-8; these contain a byte above 127 and are
    rejected by [u64::from_str] as well. *)
Definition parse_name (name : bytes) : option (N * N) :=
  let '(x, y) := split_dot name in
  match u64_from_str x, u64_from_str (default [] y) with
  | Some s, Some i => Some (s, i)
  | _, _ => None
  end.

(** ** Archives *)
(** A path component ([std::path::Component]): a name, or anything else (root, "..", prefix). *)
Inductive comp := CNormal (s : bytes) | COther.
#[global] Instance comp_eq_dec : EqDecision comp.
Proof. solve_decision. Defined.
(** A tar entry: its path and what reading it delivers. *)
Record entry := Entry { en_path : list comp; en_data : bytes }.
(** [Path::file_name]: the last component if it is a name. *)
Definition file_name (p : list comp) : option bytes := match last p with Some (CNormal s) => Some s | _ => None end.
Definition str_snapshots : bytes := map n2b [115; 110; 97; 112; 115; 104; 111; 116; 115].
Definition str_accounts : bytes := map n2b [97; 99; 99; 111; 117; 110; 116; 115].
(** [is_snapshot_manifest_file], archived.rs 138-160. *)
Definition is_manifest (p : list comp) : bool :=
  match p with
  | [CNormal d; CNormal a; CNormal b] =>
      bool_decide (d = str_snapshots) && match u64_from_str a with Some _ => bool_decide (a = b) | None => false end
  | _ => false
  end.
(** [is_appendvec_file], archived.rs 162-172. *)
Definition is_avec_file (p : list comp) : bool :=
  match p with
  | [CNormal d; CNormal n] => bool_decide (d = str_accounts) && match parse_name n with Some _ => true | None => false end
  | _ => false
  end.
(** The part of [AccountsDbFields] that is used (solana.rs 105-126): for each slot, the ids and lengths of its files. *)
Definition index_t := gmap N (list (N * N)).
(** [from_reader], archived.rs 41-93: skip to the manifest; [None] is an entry that cannot be read.  [dec] decodes the manifest. *)
Fixpoint from_reader (dec : bytes -> option index_t) (es : list (option entry)) : sres (index_t * list (option entry)) :=
  match es with
  | [] => SErr ENoManifest
  | None :: _ => SErr EIo
  | Some e :: es' =>
      if is_manifest (en_path e) then match dec (en_data e) with Some ix => SOk (ix, es') | None => SErr EBincode end
      else if is_avec_file (en_path e) then SErr EUnexpected
      else from_reader dec es'
  end.
(** [find(|entry| entry.id == id)] in the list of the slot, archived.rs 120-131 and unpacked.rs 106-117. *)
Definition known_len (ix : index_t) (slot id : N) : option N :=
  match list_find (fun e => e.1 = id) (default [] (ix !! slot)) with Some (_, (_, len)) => Some len | None => None end.
(** [process_entry], archived.rs 114-136. *)
Definition process_entry (ix : index_t) (b : bytes) (slot id : N) : sres avec :=
  match known_len ix slot id with
  | None => SErr EUnexpected
  | Some len => new_from_reader b len slot
  end.
(** [open_append_vec], unpacked.rs 106-124. *)
Definition open_append_vec (ix : index_t) (b : bytes) (slot id : N) : sres avec :=
  match known_len ix slot id with
  | None => SErr EUnexpected
  | Some len => new_from_file b len slot
  end.
(** [unboxed_iter], archived.rs 95-112. *)
Definition entry_vec (ix : index_t) (e : option entry) : option (sres avec) :=
  match e with
  | None => Some (SErr EIo)
  | Some e =>
      match file_name (en_path e) with
      | None => None
      | Some n => match parse_name n with
                  | None => None
                  | Some (slot, id) => Some (process_entry ix (en_data e) slot id)
                  end
      end
  end.
Definition archive_vecs (ix : index_t) (es : list (option entry)) : list (sres avec) := omap (entry_vec ix) es.

(** ** Loading a snapshot into the token storage, main.rs 113-153 *)
(** What is stored for an account of the archive, 134-147: slot and write version are 0. *)
Definition load_acct (s : stored) : acct :=
  Acct (sm_pubkey s) (Account (am_lamports s) (DRaw (st_data s)) (am_owner s) (negb (b2n (am_exec s) =? 0)) (am_rent s)) 0 0.
Fixpoint load_accounts (E : ext) (ts : tstore) (l : list stored) : res tstore :=
  match l with
  | [] => Done ts
  | s :: l' =>
      if am_owner s =? spl_token_id then ts' ← ts_init E ts (load_acct s); load_accounts E ts' l'
      else load_accounts E ts l'
  end.
(** 123-152: every file must be readable ([vec.unwrap()]); [None]: out of fuel. *)
Fixpoint load_vecs (fuel : nat) (E : ext) (ts : tstore) (l : list (sres avec)) : option (res tstore) :=
  match l with
  | [] => Some (Done ts)
  | SErr _ :: _ => Some Panic
  | SOk v :: l' =>
      match av_accounts fuel v with
      | None => None
      | Some Panic => Some Panic
      | Some (Done ss) => match load_accounts E ts ss with Done ts' => load_vecs fuel E ts' l' | Panic => Some Panic end
      end
  end.
(** 113-126: open the archive ([unwrap]), then load all of it. *)
Definition load_archive (fuel : nat) (E : ext) (dec : bytes -> option index_t) (ts : tstore) (es : list (option entry)) : option (res tstore) :=
  match from_reader dec es with
  | SErr _ => Some Panic
  | SOk (ix, es') => load_vecs fuel E ts (archive_vecs ix es')
  end.
