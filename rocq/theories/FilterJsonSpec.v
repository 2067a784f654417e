(** Filters and their JSON, without the code: which JSON value describes which filter. *)
From Verif Require Import Base DataModel FilterModel Base58Model JsonModel.
From Coq Require Import String.
#[local] Open Scope string_scope.
#[local] Open Scope list_scope.

Definition txt (s : string) : bytes := list_byte_of_string s.
Definition absent (k : string) (es : list (bytes * json)) : Prop := txt k ∉ es.*1.
(** The entry of a key (the first, should there be several; no text of an object has several). *)
Definition has (k : string) (v : json) (es : list (bytes * json)) : Prop := exists l1 l2, es = l1 ++ (txt k, v) :: l2 /\ txt k ∉ l1.*1.
(** The base-58 text of a public key. *)
Definition key_json (v : json) (pk : pubkey) : Prop := v = JStr (pk_text pk) /\ pk < 2 ^ 256.
Inductive data_json : json -> memcmp_data -> Prop :=
| dj_bytes vs b : Forall2 (fun v x => v = JNat (b2n x)) vs b -> data_json (JObj [(txt "bytes", JArr vs)]) (MBytes b)
| dj_base58 s : data_json (JObj [(txt "base58", JStr s)]) (MBase58 s)
| dj_base64 s : data_json (JObj [(txt "base64", JStr s)]) (MBase64 s).
(** The two parts of a comparison stand in any order, among others; or as a pair. *)
Inductive condition_json : json -> cond -> Prop :=
| cj_size n : condition_json (JObj [(txt "datasize", JNat n)]) (Datasize n)
| cj_memcmp es o v d : has "offset" (JNat o) es -> has "data" v es -> data_json v d -> condition_json (JObj [(txt "memcmp", JObj es)]) (MemcmpC (Memcmp o d))
| cj_pair o v d : data_json v d -> condition_json (JObj [(txt "memcmp", JArr [JNat o; v])]) (MemcmpC (Memcmp o d)).
(** An object describes a filter: each of the three parts is there, or absent for nothing. *)
Definition describes (v : json) (f : afilter) : Prop :=
  exists es, v = JObj es /\
    (f_accounts f = [] /\ absent "accounts" es \/ exists vs, has "accounts" (JArr vs) es /\ Forall2 key_json vs (f_accounts f)) /\
    match f_program f with
    | None => absent "programId" es
    | Some p => exists v, has "programId" v es /\ key_json v p
    end /\
    match f_filters f with
    | None => absent "filters" es \/ has "filters" JNull es
    | Some cs => exists vs, has "filters" (JArr vs) es /\ Forall2 condition_json vs cs
    end.
(** What passes for the empty filter besides: something else than an object; and accounts that are not an array pass for none. *)
Definition is_object (v : json) : Prop := exists es, v = JObj es.
Definition is_array (v : json) : Prop := exists vs, v = JArr vs.
Definition passes (v : json) (f : afilter) : Prop :=
  describes v f \/ ~ is_object v /\ f = AFilter [] None None \/
  exists es x, v = JObj es /\ has "accounts" x es /\ ~ is_array x /\ f_accounts f = [] /\
    describes (JObj (filter (fun e => e.1 <> txt "accounts") es)) f.
(** The filters that there are: 32-byte keys, 64-bit sizes and offsets. *)
Definition cond_ok (c : cond) : Prop := match c with Datasize n => n < 2 ^ 64 | MemcmpC m => m_offset m < 2 ^ 64 end.
Definition filter_ok (f : afilter) : Prop :=
  Forall (fun pk => pk < 2 ^ 256) (f_accounts f) /\ match f_program f with Some p => p < 2 ^ 256 | None => True end /\
  match f_filters f with Some cs => Forall cond_ok cs | None => True end.
