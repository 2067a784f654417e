(** What base58 and base64 texts stand for, by the definitions of the encodings. *)
From Verif Require Import Base.
From Coq Require String.
Import String.StringSyntax.
#[local] Delimit Scope string_scope with string.

(** ** Base64 (RFC 4648, section 4) *)
(** Table 1. *)
Definition sym64 (s : N) (c : byte) : Prop :=
  (s < 26 /\ b2n c = 65 + s) \/ (26 <= s < 52 /\ b2n c = 97 + (s - 26)) \/ (52 <= s < 62 /\ b2n c = 48 + (s - 52)) \/ (s = 62 /\ b2n c = 43) \/ (s = 63 /\ b2n c = 47).
(** 24 bits are four symbols of 6 bits; two bytes and one byte are filled with zero bits, and the text with '='. *)
Inductive base64_text : bytes -> bytes -> Prop :=
| b64_nothing : base64_text [] []
| b64_three x y z r s1 s2 s3 s4 c1 c2 c3 c4 t : sym64 s1 c1 -> sym64 s2 c2 -> sym64 s3 c3 -> sym64 s4 c4 ->
    (b2n x * 256 + b2n y) * 256 + b2n z = ((s1 * 64 + s2) * 64 + s3) * 64 + s4 -> base64_text r t -> base64_text (x :: y :: z :: r) (c1 :: c2 :: c3 :: c4 :: t)
| b64_two x y s1 s2 s3 c1 c2 c3 e : sym64 s1 c1 -> sym64 s2 c2 -> sym64 s3 c3 -> b2n e = 61 ->
    (b2n x * 256 + b2n y) * 4 = (s1 * 64 + s2) * 64 + s3 -> base64_text [x; y] [c1; c2; c3; e]
| b64_one x s1 s2 c1 c2 e f : sym64 s1 c1 -> sym64 s2 c2 -> b2n e = 61 -> b2n f = 61 ->
    b2n x * 16 = s1 * 64 + s2 -> base64_text [x] [c1; c2; e; f].

(** ** Base58 *)
(** The number that digits, most significant first, are in a base. *)
Definition number (base : N) (ds : list N) : N := foldl (fun n d => base * n + d) 0 ds.
Definition letter58 (d : N) (c : byte) : Prop :=
  String.list_byte_of_string "123456789ABCDEFGHJKLMNPQRSTUVWXYZabcdefghijkmnopqrstuvwxyz" !! N.to_nat d = Some c.
(** As many '1' as there are zero bytes in front, then the rest as a number. *)
Definition base58_text (b t : bytes) : Prop :=
  exists k rest ds letters, b = replicate k (n2b 0) ++ rest /\ t = replicate k (n2b 49) ++ letters /\ Forall2 letter58 ds letters /\
    head rest <> Some (n2b 0) /\ head ds <> Some 0 /\ number 58 ds = number 256 (b2n <$> rest).
