(** UTF-8 as implemented by [str.encode('utf-8')] and [bytes.decode('utf-8')]. *)
From Verif Require Import Base.
Open Scope N_scope.

(** One code point; [None]: UnicodeEncodeError (surrogates) or not a python character. *)
Definition enc_cp (c : N) : option bytes :=
  if c <? 128 then Some [n2b c]
  else if c <? 2048 then Some [n2b (192 + c / 64); n2b (128 + c mod 64)]
  else if c <? 65536 then
    if (55296 <=? c) && (c <=? 57343) then None
    else Some [n2b (224 + c / 4096); n2b (128 + (c / 64) mod 64); n2b (128 + c mod 64)]
  else if c <? 1114112 then
    Some [n2b (240 + c / 262144); n2b (128 + (c / 4096) mod 64); n2b (128 + (c / 64) mod 64);
          n2b (128 + c mod 64)]
  else None.

(** errors="surrogateescape": U+DC80..U+DCFF stand for raw bytes *)
Definition enc_cp_esc (c : N) : option bytes :=
  if (56448 <=? c) && (c <=? 56575) then Some [n2b (c - 56320)] else enc_cp c.

Fixpoint enc_with (f : N -> option bytes) (s : pystr) : option bytes :=
  match s with
  | [] => Some []
  | c :: r => b ← f c; t ← enc_with f r; Some (b ++ t)
  end.

(** [s.encode('utf-8')] *)
Definition utf8_encode (s : pystr) : option bytes := enc_with enc_cp s.
(** [s.encode('utf-8', errors='surrogateescape')] *)
Definition utf8_encode_esc (s : pystr) : option bytes := enc_with enc_cp_esc s.

Definition is_cont (b : byte) : bool := (128 <=? b2n b) && (b2n b <? 192).
Definition low6 (b : byte) : N := b2n b - 128.

(** well formed two, three and four byte sequences and their code points *)
Definition cp2 (b0 b1 : byte) : option N :=
  if (194 <=? b2n b0) && (b2n b0 <? 224) && is_cont b1
  then Some ((b2n b0 - 192) * 64 + low6 b1) else None.
Definition cp3 (b0 b1 b2 : byte) : option N :=
  let c := ((b2n b0 - 224) * 64 + low6 b1) * 64 + low6 b2 in
  if (224 <=? b2n b0) && (b2n b0 <? 240) && is_cont b1 && is_cont b2
     && (2048 <=? c) && negb ((55296 <=? c) && (c <=? 57343))
  then Some c else None.
Definition cp4 (b0 b1 b2 b3 : byte) : option N :=
  let c := (((b2n b0 - 240) * 64 + low6 b1) * 64 + low6 b2) * 64 + low6 b3 in
  if (240 <=? b2n b0) && (b2n b0 <? 248) && is_cont b1 && is_cont b2 && is_cont b3
     && (65536 <=? c) && (c <? 1114112)
  then Some c else None.

(** [bytes.decode('utf-8', errors=h)].  [bad] maps an undecodable byte to its replacement, [None]
    being the strict handler.  CPython calls the handler for a maximal invalid prefix; the
    handlers used here replace each byte of it separately, and its continuation bytes are undecodable on
    their own, so going byte by byte gives the same text. *)
Fixpoint utf8_dec (bad : byte -> option pystr) (l : bytes) : option pystr :=
  match l with
  | [] => Some []
  | b0 :: l1 =>
      let err := (t ← bad b0; r ← utf8_dec bad l1; Some (t ++ r)) in
      if b2n b0 <? 128 then r ← utf8_dec bad l1; Some (b2n b0 :: r)
      else match l1 with
      | [] => err
      | b1 :: l2 =>
          match cp2 b0 b1 with
          | Some c => r ← utf8_dec bad l2; Some (c :: r)
          | None =>
            match l2 with
            | [] => err
            | b2 :: l3 =>
                match cp3 b0 b1 b2 with
                | Some c => r ← utf8_dec bad l3; Some (c :: r)
                | None =>
                  match l3 with
                  | [] => err
                  | b3 :: l4 =>
                      match cp4 b0 b1 b2 b3 with
                      | Some c => r ← utf8_dec bad l4; Some (c :: r)
                      | None => err
                      end
                  end
                end
            end
          end
      end
  end.

(** [b.decode('utf-8')] *)
Definition utf8_decode (l : bytes) : option pystr := utf8_dec (fun _ => None) l.
(** [b.decode('utf-8', errors='surrogateescape')] *)
Definition utf8_decode_esc (l : bytes) : pystr :=
  default [] (utf8_dec (fun b => Some [56320 + b2n b]) l).
(** [b.decode('utf-8', errors='ignore')] *)
Definition utf8_decode_ignore (l : bytes) : pystr :=
  default [] (utf8_dec (fun _ => Some []) l).

Definition hexdigit (n : N) : N := if n <? 10 then 48 + n else 87 + n.
(** "\xNN" *)
Definition hex_escape (n : N) : pystr := [92; 120; hexdigit (n / 16); hexdigit (n mod 16)].
(** [b.decode('utf-8', errors='backslashreplace')] *)
Definition utf8_decode_bsr (l : bytes) : pystr :=
  default [] (utf8_dec (fun b => Some (hex_escape (b2n b))) l).
