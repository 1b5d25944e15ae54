(** Session files as text.  Models what gsp/io/json.py:60-80 writes and 83-90 reads:
    Python's json.dump and json.dumps with their default separators or indent=2,
    json.load, and the file they go to.

    Python strings are lists of code points, a text is a list of ASCII characters.
    Simplifications: a float is the text repr() gives for it, which float() reads back
    as the same number; Python's limit on the depth of nested calls is left out; an
    integer of any length can be written and read. *)
From Coq Require Export NArith.
From Coq Require Import Decimal DecimalZ.
From Verif Require Import Base.
Open Scope N_scope.

(** The text of a file, gsp/io/json.py:72-73 and 86-87. *)
Definition text := list ascii.
(** A Python string: its code points. *)
Definition pystr := list N.
(** The ASCII characters of a literal. *)
Definition t (s : string) : text := list_ascii_of_string s.

(** What is written.  [TBad]: a value neither json nor the [default] hook
    (gsp/io/json.py:12-27) can write. *)
Inductive jt :=
| TNull | TBool (b : bool) | TInt (z : Z) | TFloat (tok : text) | TStr (s : pystr)
| TList (l : list jt) | TDict (d : list (pystr * jt)) | TBad.

(** ** Writing *)

(** The character of a code, for json.dump (gsp/io/json.py:70, 73). *)
Definition ch (n : N) : ascii := ascii_of_N n.
(** A digit of the escapes json.dump writes (gsp/io/json.py:70, 73). *)
Definition hex_digit (n : N) : ascii := ch (if n <? 10 then 48 + n else 87 + n).
(** '\\u{0:04x}'. *)
Definition u_escape (c : N) : text :=
  [ch 92; ch 117; hex_digit (c / 4096 mod 16); hex_digit (c / 256 mod 16); hex_digit (c / 16 mod 16); hex_digit (c mod 16)].
(** json.encoder.py_encode_basestring_ascii: what is not between a space and a tilde
    is escaped, beyond 16 bits by a pair of surrogates. *)
Definition escape (c : N) : text :=
  if c =? 34 then [ch 92; ch 34]
  else if c =? 92 then [ch 92; ch 92]
  else if c =? 10 then [ch 92; ch 110]
  else if c =? 13 then [ch 92; ch 114]
  else if c =? 9 then [ch 92; ch 116]
  else if c =? 12 then [ch 92; ch 102]
  else if c =? 8 then [ch 92; ch 98]
  else if (32 <=? c) && (c <=? 126) then [ch c]
  else if c <? 65536 then u_escape c
  else (u_escape (55296 + (c - 65536) / 1024 mod 1024) ++ u_escape (56320 + (c - 65536) mod 1024))%list.
(** A string in quotes, json.encoder.encode_basestring_ascii (gsp/io/json.py:70, 73). *)
Definition write_str (s : pystr) : text := (ch 34 :: flat_map escape s ++ [ch 34])%list.

(** The digits of a number, as json.dump writes them (gsp/io/json.py:70, 73). *)
Fixpoint write_uint (d : uint) : text :=
  match d with
  | Nil => []
  | D0 r => ch 48 :: write_uint r | D1 r => ch 49 :: write_uint r | D2 r => ch 50 :: write_uint r
  | D3 r => ch 51 :: write_uint r | D4 r => ch 52 :: write_uint r | D5 r => ch 53 :: write_uint r
  | D6 r => ch 54 :: write_uint r | D7 r => ch 55 :: write_uint r | D8 r => ch 56 :: write_uint r
  | D9 r => ch 57 :: write_uint r
  end.
(** int.__repr__. gsp/io/json.py:70, 73. *)
Definition write_int (z : Z) : text :=
  match Z.to_int z with Pos d => write_uint d | Neg d => ch 45 :: write_uint d end.

(** json.dump(..) or json.dumps(.., indent=2). gsp/io/json.py:73 and 70. *)
Inductive style := Compact | Indented.
(** The new line and the blanks before an item at depth [l] with indent=2, gsp/io/json.py:70. *)
Definition newline (st : style) (l : nat) : text :=
  match st with Compact => [] | Indented => (ch 10 :: repeat (ch 32) (2 * l))%list end.
(** Between items: the item separator of json, a comma alone when there is an indent (gsp/io/json.py:70, 73). *)
Definition separator (st : style) (l : nat) : text :=
  match st with Compact => t ", " | Indented => (ch 44 :: newline Indented l)%list end.

(** What has been written, and whether nothing was raised meanwhile. gsp/io/json.py:70, 73. *)
Definition out := (text * bool)%type.
(** [b] is written if [a] raised nothing, gsp/io/json.py:73. *)
Definition after (a b : out) : out := if snd a then ((fst a ++ fst b)%list, snd b) else a.
(** Writing a piece, gsp/io/json.py:73. *)
Definition say (x : text) : out := (x, true).
(** Items with separators between them, gsp/io/json.py:70, 73. *)
Fixpoint items (sep : text) (l : list out) : out :=
  match l with
  | [] => say []
  | [x] => x
  | x :: r => after x (after (say sep) (items sep r))
  end.
(** json.encoder._make_iterencode: the pieces are written one after the other, at
    depth [l]. gsp/io/json.py:70, 73. *)
Fixpoint write (st : style) (l : nat) (v : jt) : out :=
  match v with
  | TNull => say (t "null")
  | TBool b => say (t (if b then "true" else "false"))
  | TInt z => say (write_int z)
  | TFloat tok => say tok
  | TStr s => say (write_str s)
  | TList [] => say (t "[]")
  | TList xs => after (say (ch 91 :: newline st (S l)))
                      (after (items (separator st (S l)) (map (write st (S l)) xs)) (say (newline st l ++ [ch 93])%list))
  | TDict [] => say (t "{}")
  | TDict d => after (say (ch 123 :: newline st (S l)))
                     (after (items (separator st (S l)) (map (fun kv => after (say (write_str (fst kv) ++ t ": ")%list) (write st (S l) (snd kv))) d))
                            (say (newline st l ++ [ch 125])%list))
  | TBad => ([], false)
  end.
(** json.dumps: nothing is returned when something is raised. gsp/io/json.py:70. *)
Definition dumps (st : style) (v : jt) : res text :=
  let '(x, ok) := write st 0 v in if ok then Ok x else Err TypeError.

(** ** Reading *)

(** The code of a character read, gsp/io/json.py:87. *)
Definition code (c : ascii) : N := N_of_ascii c.
(** json.decoder.WHITESPACE. gsp/io/json.py:87. *)
Definition is_space (c : ascii) : bool := let n := code c in (n =? 32) || (n =? 9) || (n =? 10) || (n =? 13).
(** Blanks json.load skips, gsp/io/json.py:87. *)
Fixpoint spaces (s : text) : text :=
  match s with c :: r => if is_space c then spaces r else s | [] => [] end.
(** The digits of a number, gsp/io/json.py:87. *)
Definition is_digit (c : ascii) : bool := let n := code c in (48 <=? n) && (n <=? 57).
(** The digits of an escape, in small or capital letters (json.decoder._decode_uXXXX, gsp/io/json.py:87). *)
Definition hex_value (c : ascii) : option N :=
  let n := code c in
  if (48 <=? n) && (n <=? 57) then Some (n - 48)
  else if (97 <=? n) && (n <=? 102) then Some (n - 87)
  else if (65 <=? n) && (n <=? 70) then Some (n - 55)
  else None.
(** json.decoder.scanstring after the opening quote, before surrogates are joined.
    gsp/io/json.py:87. *)
Fixpoint scan_units (s : text) : res (pystr * text) :=
  match s with
  | [] => Err ValueError
  | c :: r =>
      if code c =? 34 then Ok ([], r)
      else if code c =? 92 then
        match r with
        | [] => Err ValueError
        | e :: r1 =>
            let one (n : N) := let* x := scan_units r1 in Ok (n :: fst x, snd x) in
            if code e =? 34 then one 34 else if code e =? 92 then one 92 else if code e =? 47 then one 47
            else if code e =? 98 then one 8 else if code e =? 102 then one 12 else if code e =? 110 then one 10
            else if code e =? 114 then one 13 else if code e =? 116 then one 9
            else if code e =? 117 then
              match r1 with
              | a :: b :: c :: d :: r2 =>
                  match hex_value a, hex_value b, hex_value c, hex_value d with
                  | Some a, Some b, Some c, Some d =>
                      let* x := scan_units r2 in Ok ((((a * 16 + b) * 16 + c) * 16 + d) :: fst x, snd x)
                  | _, _, _, _ => Err ValueError
                  end
              | _ => Err ValueError
              end
            else Err ValueError
        end
      else if code c <? 32 then Err ValueError
      else let* x := scan_units r in Ok (code c :: fst x, snd x)
  end.
(** The first of a pair of surrogates, gsp/io/json.py:87. *)
Definition high (c : N) : bool := (55296 <=? c) && (c <=? 56319).
(** The second of a pair of surrogates, gsp/io/json.py:87. *)
Definition low (c : N) : bool := (56320 <=? c) && (c <=? 57343).
(** Two escapes that are a pair of surrogates give one character. gsp/io/json.py:87. *)
Fixpoint join_pairs (l : pystr) : pystr :=
  match l with
  | a :: (b :: r) as r1 => if high a && low b then (65536 + (a - 55296) * 1024 + (b - 56320)) :: join_pairs r else a :: join_pairs r1
  | _ => l
  end.
(** json.decoder.scanstring after the opening quote, gsp/io/json.py:87. *)
Definition scan_string (s : text) : res (pystr * text) :=
  let* x := scan_units s in Ok (join_pairs (fst x), snd x).

(** json.scanner: NUMBER_RE = (-?(?:0|[1-9]\d* ))(\.\d+)?([eE][-+]?\d+)? *)
Fixpoint span (p : ascii -> bool) (s : text) : text * text :=
  match s with
  | c :: r => if p c then let x := span p r in (c :: fst x, snd x) else ([], s)
  | [] => ([], [])
  end.
(** The first part of NUMBER_RE, gsp/io/json.py:87. *)
Definition scan_sign (s : text) : text * text :=
  match s with c :: r => if code c =? 45 then ([c], r) else ([], s) | [] => ([], []) end.
(** The digits before the point in NUMBER_RE, gsp/io/json.py:87. *)
Definition scan_whole (s : text) : option (text * text) :=
  match s with
  | c :: r => if code c =? 48 then Some ([c], r) else if is_digit c then Some (span is_digit s) else None
  | [] => None
  end.
(** The second group of NUMBER_RE, gsp/io/json.py:87. *)
Definition scan_fraction (s : text) : text * text :=
  match s with
  | c :: r => if code c =? 46 then match span is_digit r with ([], _) => ([], s) | (d, r1) => ((c :: d)%list, r1) end else ([], s)
  | [] => ([], [])
  end.
(** The third group of NUMBER_RE, gsp/io/json.py:87. *)
Definition scan_exponent (s : text) : text * text :=
  match s with
  | c :: r =>
      if (code c =? 101) || (code c =? 69) then
        let '(sg, r1) := match r with x :: r1 => if (code x =? 43) || (code x =? 45) then ([x], r1) else ([], r) | [] => ([], []) end in
        match span is_digit r1 with ([], _) => ([], s) | (d, r2) => ((c :: sg ++ d)%list, r2) end
      else ([], s)
  | [] => ([], [])
  end.
(** int(). gsp/io/json.py:87. *)
Fixpoint read_uint (s : text) : uint :=
  match s with
  | [] => Nil
  | c :: r =>
      let d := read_uint r in
      match code c - 48 with
      | 0 => D0 d | 1 => D1 d | 2 => D2 d | 3 => D3 d | 4 => D4 d | 5 => D5 d | 6 => D6 d | 7 => D7 d | 8 => D8 d | _ => D9 d
      end
  end.
(** json.scanner: a match of NUMBER_RE is a float when it has a fraction or an exponent, gsp/io/json.py:87. *)
Definition scan_number (s : text) : res (jt * text) :=
  let '(sg, s1) := scan_sign s in
  match scan_whole s1 with
  | None => Err ValueError
  | Some (w, s2) =>
      let '(fr, s3) := scan_fraction s2 in
      let '(ex, s4) := scan_exponent s3 in
      match (fr ++ ex)%list with
      | [] => Ok (TInt (Z.of_int (match sg with [] => Pos (read_uint w) | _ => Neg (read_uint w) end)), s4)
      | _ => Ok (TFloat (sg ++ w ++ fr ++ ex)%list, s4)
      end
  end.

(** [s] starts with [w]: what follows. gsp/io/json.py:87. *)
Fixpoint skip (w s : text) : option text :=
  match w, s with
  | [], _ => Some s
  | a :: w', b :: s' => if Ascii.eqb a b then skip w' s' else None
  | _ :: _, [] => None
  end.
(** json.scanner.scan_once for what is neither text, list nor dictionary. gsp/io/json.py:87. *)
Definition scan_atom (s : text) : res (jt * text) :=
  match skip (t "null") s, skip (t "true") s, skip (t "false") s, skip (t "NaN") s, skip (t "Infinity") s, skip (t "-Infinity") s with
  | Some r, _, _, _, _, _ => Ok (TNull, r)
  | _, Some r, _, _, _, _ => Ok (TBool true, r)
  | _, _, Some r, _, _, _ => Ok (TBool false, r)
  | _, _, _, Some r, _, _ => Ok (TFloat (t "NaN"), r)
  | _, _, _, _, Some r, _ => Ok (TFloat (t "Infinity"), r)
  | _, _, _, _, _, Some r => Ok (TFloat (t "-Infinity"), r)
  | _, _, _, _, _, _ => scan_number s
  end.

(** Equality of strings, for the keys of a dictionary (gsp/io/json.py:87). *)
Fixpoint pystr_eqb (a b : pystr) : bool :=
  match a, b with
  | [], [] => true
  | x :: a', y :: b' => (x =? y) && pystr_eqb a' b'
  | _, _ => false
  end.
(** dictionary[key] = value. gsp/io/json.py:87. *)
Fixpoint put (d : list (pystr * jt)) (k : pystr) (v : jt) : list (pystr * jt) :=
  match d with
  | [] => [(k, v)]
  | (k', v') :: r => if pystr_eqb k' k then (k', v) :: r else (k', v') :: put r k v
  end.

(** json.scanner.scan_once, JSONArray and JSONObject.  [fuel] bounds the nesting.
    gsp/io/json.py:87. *)
Fixpoint scan (fuel : nat) (s : text) : res (jt * text) :=
  match fuel with
  | O => Err OutOfFuel
  | S f =>
      match s with
      | [] => Err ValueError
      | c :: r =>
          if code c =? 34 then let* x := scan_string r in Ok (TStr (fst x), snd x)
          else if code c =? 91 then
            match spaces r with
            | [] => Err ValueError
            | c1 :: r1 => if code c1 =? 93 then Ok (TList [], r1) else scan_list f (c1 :: r1) []
            end
          else if code c =? 123 then
            match spaces r with
            | [] => Err ValueError
            | c1 :: r1 => if code c1 =? 125 then Ok (TDict [], r1) else scan_dict f (c1 :: r1) []
            end
          else scan_atom s
      end
  end
with scan_list (fuel : nat) (s : text) (acc : list jt) : res (jt * text) :=
  match fuel with
  | O => Err OutOfFuel
  | S f =>
      let* x := scan f s in
      match spaces (snd x) with
      | [] => Err ValueError
      | c :: r =>
          if code c =? 93 then Ok (TList (acc ++ [fst x])%list, r)
          else if code c =? 44 then scan_list f (spaces r) (acc ++ [fst x])%list
          else Err ValueError
      end
  end
with scan_dict (fuel : nat) (s : text) (acc : list (pystr * jt)) : res (jt * text) :=
  match fuel with
  | O => Err OutOfFuel
  | S f =>
      match s with
      | [] => Err ValueError
      | q :: s1 =>
          if negb (code q =? 34) then Err ValueError else
          let* k := scan_string s1 in
          match spaces (snd k) with
          | [] => Err ValueError
          | c :: s2 =>
              if negb (code c =? 58) then Err ValueError else
              let* x := scan f (spaces s2) in
              match spaces (snd x) with
              | [] => Err ValueError
              | c1 :: r =>
                  if code c1 =? 125 then Ok (TDict (put acc (fst k) (fst x)), r)
                  else if code c1 =? 44 then scan_dict f (spaces r) (put acc (fst k) (fst x))
                  else Err ValueError
              end
          end
      end
  end.
(** json.loads: JSONDecodeError is a ValueError. gsp/io/json.py:87. *)
Definition loads (s : text) : res jt :=
  let* x := scan (S (2 * length s)) (spaces s) in
  match spaces (snd x) with [] => Ok (fst x) | _ => Err ValueError end.
