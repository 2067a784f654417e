(** JSON text, as a grammar: what is a text of a value.  Independent of the reader and the printer; the decimal numerals of
    [AvecSpec] are used. *)
From Verif Require Import Base DataModel JsonModel AvecModel AvecSpec.

Definition white (c : byte) : Prop := b2n c = 32 \/ b2n c = 9 \/ b2n c = 10 \/ b2n c = 13.
Definition ws (w : bytes) : Prop := Forall white w.
Inductive hex_is : byte -> N -> Prop :=
| hex_dec v : v < 10 -> hex_is (n2b (48 + v)) v
| hex_low v : 10 <= v -> v < 16 -> hex_is (n2b (87 + v)) v
| hex_up v : 10 <= v -> v < 16 -> hex_is (n2b (55 + v)) v.
Definition code_unit (t : bytes) (n : N) : Prop :=
  exists a b c d w x y z, t = str [92; 117] ++ [a; b; c; d] /\ hex_is a w /\ hex_is b x /\ hex_is c y /\ hex_is d z /\ n = 4096 * w + 256 * x + 16 * y + z.
(** UTF-8 (RFC 3629, section 3): the code is cut into groups of six bits; the shortest form is the one that counts. *)
Inductive encodes : N -> bytes -> Prop :=
| enc_1 n : n < 0x80 -> encodes n (str [n])
| enc_2 a b : a < 32 -> b < 64 -> 0x80 <= 64 * a + b -> encodes (64 * a + b) (str [192 + a; 128 + b])
| enc_3 a b c : a < 16 -> b < 64 -> c < 64 -> 0x800 <= 4096 * a + 64 * b + c -> encodes (4096 * a + 64 * b + c) (str [224 + a; 128 + b; 128 + c])
| enc_4 a b c d : a < 8 -> b < 64 -> c < 64 -> d < 64 -> 0x10000 <= 262144 * a + 4096 * b + 64 * c + d ->
    encodes (262144 * a + 4096 * b + 64 * c + d) (str [240 + a; 128 + b; 128 + c; 128 + d]).
(** One character, or one byte of its encoding: itself, a short escape, an escape of its code. *)
Inductive char_text : bytes -> bytes -> Prop :=
| ch_raw c : 32 <= b2n c -> b2n c <> 34 -> b2n c <> 92 -> char_text [c] [c]
| ch_short e n : (e, n) ∈ [(34, 34); (92, 92); (47, 47); (98, 8); (102, 12); (110, 10); (114, 13); (116, 9)] -> char_text (str [n]) (str [92; e])
| ch_code t n s : code_unit t n -> (n < 0xD800 \/ 0xDFFF < n) -> encodes n s -> char_text s t
| ch_pair t u n m s : code_unit t (0xD800 + n) -> code_unit u (0xDC00 + m) -> n < 1024 -> m < 1024 -> encodes (65536 + 1024 * n + m) s -> char_text s (t ++ u).
Inductive chars_text : bytes -> bytes -> Prop :=
| cs_nil : chars_text [] []
| cs_cons s t s' t' : char_text s t -> chars_text s' t' -> chars_text (s ++ s') (t ++ t').
Definition str_text (s t : bytes) : Prop := exists u, chars_text s u /\ t = str [34] ++ u ++ str [34].
(** Values (numbers: those that fit [u64]); white space is allowed around every element, key and value inside brackets. *)
Inductive json_text : json -> bytes -> Prop :=
| jt_null : json_text JNull (str [110; 117; 108; 108])
| jt_true : json_text (JBool true) (str [116; 114; 117; 101])
| jt_false : json_text (JBool false) (str [102; 97; 108; 115; 101])
| jt_nat n t : prints t n -> n < 2 ^ 64 -> json_text (JNat n) t
| jt_str s t : str_text s t -> json_text (JStr s) t
| jt_arr0 w : ws w -> json_text (JArr []) (str [91] ++ w ++ str [93])
| jt_arr l t : l <> [] -> items_text l t -> json_text (JArr l) (str [91] ++ t ++ str [93])
| jt_obj0 w : ws w -> json_text (JObj []) (str [123] ++ w ++ str [125])
| jt_obj l t : l <> [] -> NoDup l.*1 -> entries_text l t -> json_text (JObj l) (str [123] ++ t ++ str [125])
with items_text : list json -> bytes -> Prop :=
| it_one v t w w' : json_text v t -> ws w -> ws w' -> items_text [v] (w ++ t ++ w')
| it_more v t w w' l t' : json_text v t -> ws w -> ws w' -> items_text l t' -> items_text (v :: l) ((w ++ t ++ w') ++ str [44] ++ t')
with entries_text : list (bytes * json) -> bytes -> Prop :=
| et_one k v tk t w1 w2 w3 w4 : str_text k tk -> json_text v t -> ws w1 -> ws w2 -> ws w3 -> ws w4 ->
    entries_text [(k, v)] (w1 ++ tk ++ w2 ++ str [58] ++ w3 ++ t ++ w4)
| et_more k v tk t w1 w2 w3 w4 l t' : str_text k tk -> json_text v t -> ws w1 -> ws w2 -> ws w3 -> ws w4 -> entries_text l t' ->
    entries_text ((k, v) :: l) ((w1 ++ tk ++ w2 ++ str [58] ++ w3 ++ t ++ w4) ++ str [44] ++ t').
(** How deeply arrays and objects are nested. *)
Fixpoint nesting (v : json) : nat :=
  match v with
  | JArr l => S (foldr (fun x => max (nesting x)) O l)
  | JObj l => S (foldr (fun '(_, x) => max (nesting x)) O l)
  | _ => O
  end.
Scheme json_text_mind := Induction for json_text Sort Prop
  with items_text_mind := Induction for items_text Sort Prop
  with entries_text_mind := Induction for entries_text Sort Prop.
Combined Scheme json_text_ind3 from json_text_mind, items_text_mind, entries_text_mind.
