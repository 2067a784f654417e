(** [serde_json] 1.0.128 as used by common/src/account_filter.rs 84-143 and its users: printing compact text ([to_string]) and reading a
    [Value] ([from_str]).  Library code, transcribed from its documented behaviour (not part of /repo).  Strings are their UTF-8 bytes. *)
From Verif Require Import Base DataModel Base58Model.

(** [serde_json::Value].  [JNat]: a number that fits [u64]; [JNum]: any other number (negative, fractional, too large), whose value is not
    modelled.  An object is kept as its entries in the order of the text, without duplicate keys. *)
Inductive json := JNull | JBool (b : bool) | JNat (n : N) | JNum | JStr (s : bytes) | JArr (l : list json) | JObj (l : list (bytes * json)).

Definition str (l : list N) : bytes := n2b <$> l.
Definition is (c : byte) (n : N) : bool := b2n c =? n.

(** ** Printing *)
(** [itoa]. *)
Definition digit (d : N) : byte := n2b (48 + d).
Definition print_nat (n : N) : bytes := if n =? 0 then str [48] else digit <$> reverse (radix 10 n).
(** The escapes of [format_escaped_str]: short forms, otherwise [\u00XX] in lower case, below 0x20. *)
Definition hex_digit (d : N) : byte := n2b (if d <? 10 then 48 + d else 87 + d).
Definition print_char (c : byte) : bytes :=
  let n := b2n c in
  if n =? 34 then str [92; 34] else if n =? 92 then str [92; 92] else
  if n =? 8 then str [92; 98] else if n =? 9 then str [92; 116] else if n =? 10 then str [92; 110] else if n =? 12 then str [92; 102] else if n =? 13 then str [92; 114] else
  if n <? 32 then str [92; 117; 48; 48] ++ [hex_digit (n / 16); hex_digit (n mod 16)] else [c].
Definition print_str (s : bytes) : bytes := str [34] ++ (s ≫= print_char) ++ str [34].
(** Separated by commas. *)
Fixpoint commas (l : list bytes) : bytes :=
  match l with [] => [] | [x] => x | x :: l' => x ++ str [44] ++ commas l' end.
Fixpoint print_json (v : json) : bytes :=
  match v with
  | JNull => str [110; 117; 108; 108]
  | JBool true => str [116; 114; 117; 101]
  | JBool false => str [102; 97; 108; 115; 101]
  | JNat n => print_nat n
  | JNum => str [45; 49]
  | JStr s => print_str s
  | JArr l => str [91] ++ commas (map print_json l) ++ str [93]
  | JObj l => str [123] ++ commas (map (fun '(k, v) => print_str k ++ str [58] ++ print_json v) l) ++ str [125]
  end.

(** ** Reading *)
Definition is_ws (c : byte) : bool := is c 32 || is c 9 || is c 10 || is c 13.
Fixpoint skip_ws (b : bytes) : bytes := match b with c :: b' => if is_ws c then skip_ws b' else b | [] => [] end.
Definition is_digit (c : byte) : bool := (48 <=? b2n c) && (b2n c <=? 57).
Fixpoint take_digits (b : bytes) : bytes * bytes :=
  match b with c :: b' => if is_digit c then let '(x, r) := take_digits b' in (c :: x, r) else ([], b) | [] => ([], []) end.
Definition digits_value (ds : bytes) : N := foldl (fun n c => 10 * n + (b2n c - 48)) 0 ds.
(** A fraction and an exponent, each optional; whether there was one. *)
Definition frac_exp (b : bytes) : option (bool * bytes) :=
  f ← match b with
      | c :: b' => if is c 46 then let '(x, r) := take_digits b' in match x with [] => None | _ => Some (true, r) end else Some (false, b)
      | [] => Some (false, b)
      end;
  let '(fr, r) := f : bool * bytes in
  match r with
  | c :: b' =>
      if is c 101 || is c 69 then
        let b'' := match b' with s :: b'' => if is s 43 || is s 45 then b'' else b' | [] => b' end in
        let '(x, r') := take_digits b'' in match x with [] => None | _ => Some (true, r') end
      else Some (fr, r)
  | [] => Some (fr, r)
  end.
(** A number: no leading zeros.  (Floats out of range are an error of [serde_json] that is not modelled.) *)
Definition read_nat_part (b : bytes) : option (bytes * bytes) :=
  let '(x, r) := take_digits b in
  match x with [] => None | [_] => Some (x, r) | c :: _ => if is c 48 then None else Some (x, r) end.
Definition read_number (b : bytes) : option (json * bytes) :=
  match b with
  | c :: b' =>
      if is c 45 then '(_, r) ← read_nat_part b'; '(_, r') ← frac_exp r; Some (JNum, r')
      else '(x, r) ← read_nat_part b; '(fl, r') ← frac_exp r;
           Some (if (fl : bool) then JNum else if digits_value x <? 2 ^ 64 then JNat (digits_value x) else JNum, r')
  | [] => None
  end.
Definition hex_value (c : byte) : option N :=
  let n := b2n c in
  if (48 <=? n) && (n <=? 57) then Some (n - 48) else if (97 <=? n) && (n <=? 102) then Some (n - 87) else if (65 <=? n) && (n <=? 70) then Some (n - 55) else None.
Definition hex4 (a b c d : byte) : option N :=
  w ← hex_value a; x ← hex_value b; y ← hex_value c; z ← hex_value d; Some (4096 * w + 256 * x + 16 * y + z).
Definition utf8 (n : N) : bytes :=
  n2b <$> (if n <? 128 then [n] else if n <? 2048 then [192 + n / 64; 128 + n mod 64]
           else if n <? 65536 then [224 + n / 4096; 128 + (n / 64) mod 64; 128 + n mod 64]
           else [240 + n / 262144; 128 + (n / 4096) mod 64; 128 + (n / 64) mod 64; 128 + n mod 64]).
(** The short escapes. *)
Definition short_escape (e : byte) : option N :=
  if is e 34 then Some 34 else if is e 92 then Some 92 else if is e 47 then Some 47 else if is e 98 then Some 8 else if is e 102 then Some 12 else
  if is e 110 then Some 10 else if is e 114 then Some 13 else if is e 116 then Some 9 else None.
(** The rest of a string, behind the opening quote. *)
Fixpoint read_str (b : bytes) : option (bytes * bytes) :=
  match b with
  | [] => None
  | c :: b' =>
      if is c 34 then Some ([], b')
      else if is c 92 then
        match b' with
        | [] => None
        | e :: b2 =>
            if is e 117 then
              match b2 with
              | h1 :: h2 :: h3 :: h4 :: b3 =>
                  match hex4 h1 h2 h3 h4 with
                  | None => None
                  | Some n =>
                      if (0xDC00 <=? n) && (n <=? 0xDFFF) then None
                      else if (0xD800 <=? n) && (n <=? 0xDBFF) then
                        match b3 with
                        | x :: y :: k1 :: k2 :: k3 :: k4 :: b4 =>
                            if is x 92 && is y 117 then
                              match hex4 k1 k2 k3 k4 with
                              | Some m =>
                                  if (0xDC00 <=? m) && (m <=? 0xDFFF)
                                  then '(s, r) ← read_str b4; Some (utf8 (65536 + 1024 * (n - 0xD800) + (m - 0xDC00)) ++ s, r)
                                  else None
                              | None => None
                              end
                            else None
                        | _ => None
                        end
                      else '(s, r) ← read_str b3; Some (utf8 n ++ s, r)
                  end
              | _ => None
              end
            else match short_escape e with Some n => '(s, r) ← read_str b2; Some (n2b n :: s, r) | None => None end
        end
      else if b2n c <? 32 then None
      else '(s, r) ← read_str b'; Some (c :: s, r)
  end.
Definition strip (p b : bytes) : option bytes := if bool_decide (take (length p) b = p) then Some (drop (length p) b) else None.
(** Elements up to the closing bracket; [first] tells that no comma is due. *)
Fixpoint read_items (rd : bytes -> option (json * bytes)) (fuel : nat) (first : bool) (b : bytes) : option (list json * bytes) :=
  match fuel with
  | O => None
  | S f =>
      match skip_ws b with
      | [] => None
      | c :: r =>
          if is c 93 then Some ([], r)
          else
            s ← (if first then Some (c :: r)
                 else if is c 44 then match skip_ws r with c' :: r' => if is c' 93 then None else Some (c' :: r') | [] => None end else None);
            '(v, r1) ← rd s; '(vs, r2) ← read_items rd f false r1; Some (v :: vs, r2)
      end
  end.
(** Entries up to the closing brace; an entry replaces an earlier one with the same key. *)
Fixpoint read_entries (rd : bytes -> option (json * bytes)) (fuel : nat) (first : bool) (b : bytes) : option (list (bytes * json) * bytes) :=
  match fuel with
  | O => None
  | S f =>
      match skip_ws b with
      | [] => None
      | c :: r =>
          if is c 125 then Some ([], r)
          else
            s ← (if first then Some (c :: r) else if is c 44 then Some (skip_ws r) else None);
            match s : bytes with
            | q :: s' =>
                if is q 34 then
                  '(k, r1) ← read_str s';
                  match skip_ws r1 with
                  | d :: r2 => if is d 58 then '(v, r3) ← rd r2; '(es, r4) ← read_entries rd f false r3; Some ((k, v) :: es, r4) else None
                  | [] => None
                  end
                else None
            | [] => None
            end
      end
  end.
Fixpoint dedup (l : list (bytes * json)) : list (bytes * json) :=
  match l with [] => [] | (k, v) :: l' => if existsb (fun e => bool_decide (e.1 = k)) l' then dedup l' else (k, v) :: dedup l' end.
(** A value; [depth] is how many more arrays and objects may be opened ([recursion_limit]: 128, an error when the last one is used up). *)
Fixpoint read_value (depth : nat) (b : bytes) : option (json * bytes) :=
  match skip_ws b with
  | [] => None
  | c :: r =>
      if is c 110 then r' ← strip (str [117; 108; 108]) r; Some (JNull, r')
      else if is c 116 then r' ← strip (str [114; 117; 101]) r; Some (JBool true, r')
      else if is c 102 then r' ← strip (str [97; 108; 115; 101]) r; Some (JBool false, r')
      else if is c 34 then '(s, r') ← read_str r; Some (JStr s, r')
      else if is c 91 then match depth with O => None | S d => '(l, r') ← read_items (read_value d) (S (length r)) true r; Some (JArr l, r') end
      else if is c 123 then match depth with O => None | S d => '(l, r') ← read_entries (read_value d) (S (length r)) true r; Some (JObj (dedup l), r') end
      else if is c 45 || is_digit c then read_number (c :: r)
      else None
  end.
(** [Value::deserialize] from text: the value and what follows it. *)
Definition read_json (b : bytes) : option (json * bytes) := read_value 127 b.
(** [from_str::<Value>]: nothing but white space may follow. *)
Definition json_from_str (b : bytes) : option json :=
  '(v, r) ← read_json b; match skip_ws r with [] => Some v | _ => None end.
(** [Value::get]. *)
Definition jget (k : bytes) (v : json) : option json :=
  match v with JObj l => snd <$> (list_find (fun e => e.1 = k) l ≫= fun x => Some x.2) | _ => None end.
