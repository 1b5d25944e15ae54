(** Base64 text encoding of buffer contents.  [b64encode] models
    base64.b64encode(...).decode() as used by gsp/io/json.py:15-18, 21-22;
    [b64decode] models base64.b64decode as used by
    gsp_matplotlib/core/buffer.py:22-24.  Bytes are numbers below 256.
    Simplification: [b64decode] rejects characters outside the alphabet, which
    Python skips; the encoder never produces any. *)
From Verif Require Import Base.
Local Open Scope N_scope.

(** The alphabet A-Z a-z 0-9 + / .
    RFC 4648, as Python's base64 module writes it (called at gsp/io/json.py:16, 18 and 22). *)
Definition enc6 (n : N) : ascii :=
  ascii_of_N (if n <? 26 then 65 + n else if n <? 52 then 71 + n else if n <? 62 then n - 4
              else if n =? 62 then 43 else 47).
(** The alphabet read back, in base64.b64decode (gsp_matplotlib/core/buffer.py:24). *)
Definition dec6 (c : ascii) : option N :=
  let n := N_of_ascii c in
  if (65 <=? n) && (n <=? 90) then Some (n - 65)
  else if (97 <=? n) && (n <=? 122) then Some (n - 71)
  else if (48 <=? n) && (n <=? 57) then Some (n + 4)
  else if n =? 43 then Some 62 else if n =? 47 then Some 63 else None.

(** The padding character of base64. *)
Definition pad : ascii := "="%char.

(** base64.b64encode(...).decode(), called at gsp/io/json.py:16, 18 and 22. *)
Fixpoint b64encode (l : list N) : string :=
  match l with
  | [] => EmptyString
  | [a] => String (enc6 (a / 4)) (String (enc6 ((a mod 4) * 16)) (String pad (String pad EmptyString)))
  | [a; b] => String (enc6 (a / 4)) (String (enc6 ((a mod 4) * 16 + b / 16))
              (String (enc6 ((b mod 16) * 4)) (String pad EmptyString)))
  | a :: b :: c :: r =>
      String (enc6 (a / 4)) (String (enc6 ((a mod 4) * 16 + b / 16))
        (String (enc6 ((b mod 16) * 4 + c / 64)) (String (enc6 (c mod 64)) (b64encode r))))
  end.

(** The first byte of a group of four characters (base64.b64decode, gsp_matplotlib/core/buffer.py:24). *)
Definition byte0 (p q : N) : N := p * 4 + q / 16.
(** The second byte of a group. *)
Definition byte1 (q r : N) : N := (q mod 16) * 16 + r / 4.
(** The third byte of a group. *)
Definition byte2 (r s : N) : N := (r mod 4) * 64 + s.

(** base64.b64decode, called at gsp_matplotlib/core/buffer.py:24. *)
Fixpoint b64decode (t : string) : res (list N) :=
  match t with
  | EmptyString => Ok []
  | String c0 (String c1 (String c2 (String c3 rest))) =>
      match dec6 c0, dec6 c1 with
      | Some p, Some q =>
          if Ascii.eqb c2 pad then
            if Ascii.eqb c3 pad then
              match rest with EmptyString => Ok [byte0 p q] | _ => Err ValueError end
            else Err ValueError
          else match dec6 c2 with
          | Some r =>
              if Ascii.eqb c3 pad then
                match rest with EmptyString => Ok [byte0 p q; byte1 q r] | _ => Err ValueError end
              else match dec6 c3 with
              | Some s => let* l := b64decode rest in Ok (byte0 p q :: byte1 q r :: byte2 r s :: l)
              | None => Err ValueError
              end
          | None => Err ValueError
          end
      | _, _ => Err ValueError
      end
  | _ => Err ValueError
  end.
