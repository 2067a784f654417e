(** Specification vocabulary for storage files: what the validator writes, what a name means. *)
From Verif Require Import Base DataModel AvecModel.

(** An account as the validator appends it. *)
Record vacct := VAcct { v_wv : N; v_pubkey : pubkey; v_lamports : N; v_rent : N; v_owner : pubkey; v_exec : bool; v_hash : bytes; v_data : bytes }.
Definition vacct_ok (a : vacct) : Prop :=
  v_wv a < 2 ^ 64 /\ v_pubkey a < 256 ^ 32 /\ v_lamports a < 2 ^ 64 /\ v_rent a < 2 ^ 64 /\ v_owner a < 256 ^ 32 /\
  length (v_hash a) = 32%nat /\ lenN (v_data a) < 2 ^ 63.
(** Its record: 48 + 56 + 32 bytes and the data; the seven bytes after the flag are arbitrary. *)
Inductive encodes (a : vacct) : bytes -> Prop :=
| enc (pad : bytes) : length pad = 7%nat ->
    encodes a (le 8 (v_wv a) ++ le 8 (lenN (v_data a)) ++ le 32 (v_pubkey a) ++
               le 8 (v_lamports a) ++ le 8 (v_rent a) ++ le 32 (v_owner a) ++ [if v_exec a then "001"%byte else "000"%byte] ++ pad ++
               v_hash a ++ v_data a).
(** A file: records, each but the last padded (with anything) to a multiple of 8 bytes. *)
Inductive written : list vacct -> bytes -> Prop :=
| w_nil : written [] []
| w_last a b : encodes a b -> written [a] b
| w_cons a b pad l f : encodes a b -> (length pad < 8)%nat -> (lenN (b ++ pad)) mod 8 = 0 -> l <> [] -> written l f ->
    written (a :: l) (b ++ pad ++ f).
(** The account that was read is the account that was written. *)
Definition reads_as (s : stored) (a : vacct) : Prop :=
  sm_wv s = v_wv a /\ sm_dlen s = lenN (v_data a) /\ sm_pubkey s = v_pubkey a /\ am_lamports s = v_lamports a /\ am_rent s = v_rent a /\
  am_owner s = v_owner a /\ am_exec s = (if v_exec a then "001"%byte else "000"%byte) /\ st_hash s = v_hash a /\ st_data s = v_data a.

(** The bytes [from, to) of a file. *)
Definition part (f : bytes) (from to : N) : bytes := take (N.to_nat (to - from)) (drop (N.to_nat from) f).

(** Decimal digit strings and their values. *)
Inductive decimal : bytes -> N -> Prop :=
| dec_one d : d < 10 -> decimal [n2b (48 + d)] d
| dec_snoc s n d : decimal s n -> d < 10 -> decimal (s ++ [n2b (48 + d)]) (10 * n + d).
(** The way numbers are printed: no superfluous zero. *)
Definition prints (s : bytes) (n : N) : Prop := decimal s n /\ (head s = Some (n2b 48) -> n = 0 /\ s = [n2b 48]).
Definition dot : byte := n2b 46.
Definition plus : byte := n2b 43.

(** Paths in an archive: the manifest is snapshots/<slot>/<slot>, storage files are accounts/<slot>.<id>. *)
Definition dir_snapshots : bytes := map n2b [115; 110; 97; 112; 115; 104; 111; 116; 115].
Definition dir_accounts : bytes := map n2b [97; 99; 99; 111; 117; 110; 116; 115].
Definition manifest_entry (e : entry) : Prop :=
  exists s n, en_path e = [CNormal dir_snapshots; CNormal s; CNormal s] /\ prints s n /\ n < 2 ^ 64.
Definition file_entry (e : entry) (slot id : N) : Prop :=
  exists s s', en_path e = [CNormal dir_accounts; CNormal (s ++ dot :: s')] /\ prints s slot /\ prints s' id /\ slot < 2 ^ 64 /\ id < 2 ^ 64.
(** Neither of the two: not even in the right place. *)
Definition harmless_entry (e : entry) : Prop :=
  (forall s s', en_path e <> [CNormal dir_snapshots; CNormal s; CNormal s']) /\ (forall s, en_path e <> [CNormal dir_accounts; CNormal s]).
(** The manifest lists the file with this length. *)
Definition listed (ix : index_t) (slot id len : N) : Prop :=
  exists l, ix !! slot = Some l /\ (id, len) ∈ l /\ NoDup l.*1.
(** The account the loader should hand to the storage. *)
Definition as_acct (a : vacct) : acct := Acct (v_pubkey a) (Account (v_lamports a) (DRaw (v_data a)) (v_owner a) (v_exec a) (v_rent a)) 0 0.
