(** str.encode / bytes.decode for "utf-8" and "utf-16", errors="strict".
    CPython builtins; "utf-16" is modelled for a little-endian host: encode writes
    the BOM FF FE and little-endian units, decode honours a BOM of either
    endianness and assumes little-endian without one. *)
From Verif Require Import Py.

Definition is_surrogate (c : Z) : bool := (55296 <=? c) && (c <=? 57343).

Definition utf8_enc1 (c : Z) : res bytes :=
  if c <? 0 then Err EUnicodeEncode
  else if c <? 128 then Ok [c]
  else if c <? 2048 then Ok [192 + c / 64; 128 + c mod 64]
  else if is_surrogate c then Err EUnicodeEncode
  else if c <? 65536 then Ok [224 + c / 4096; 128 + c / 64 mod 64; 128 + c mod 64]
  else if c <? 1114112 then
    Ok [240 + c / 262144; 128 + c / 4096 mod 64; 128 + c / 64 mod 64; 128 + c mod 64]
  else Err EUnicodeEncode.

Fixpoint utf8_encode (s : pystr) : res bytes :=
  match s with
  | [] => Ok []
  | c :: s' => rbind (utf8_enc1 c) (fun a => rbind (utf8_encode s') (fun b => Ok (a ++ b)))
  end.

Definition is_cont (b : Z) : bool := (128 <=? b) && (b <=? 191).

Definition rcons {A} (a : A) (r : res (list A)) : res (list A) :=
  match r with Ok l => Ok (a :: l) | Err e => Err e end.

Fixpoint utf8_decode (b : bytes) : res pystr :=
  match b with
  | [] => Ok []
  | b0 :: r0 =>
      if b0 <? 128 then rcons b0 (utf8_decode r0)
      else if b0 <? 194 then Err EUnicodeDecode
      else match r0 with
           | [] => Err EUnicodeDecode
           | b1 :: r1 =>
               if negb (is_cont b1) then Err EUnicodeDecode
               else if b0 <? 224 then rcons ((b0 - 192) * 64 + (b1 - 128)) (utf8_decode r1)
               else match r1 with
                    | [] => Err EUnicodeDecode
                    | b2 :: r2 =>
                        if negb (is_cont b2) then Err EUnicodeDecode
                        else if b0 <? 240 then
                          let c := (b0 - 224) * 4096 + (b1 - 128) * 64 + (b2 - 128) in
                          if (c <? 2048) || is_surrogate c then Err EUnicodeDecode
                          else rcons c (utf8_decode r2)
                        else match r2 with
                             | [] => Err EUnicodeDecode
                             | b3 :: r3 =>
                                 if negb (is_cont b3) then Err EUnicodeDecode
                                 else
                                   let c := (b0 - 240) * 262144 + (b1 - 128) * 4096
                                            + (b2 - 128) * 64 + (b3 - 128) in
                                   if (c <? 65536) || (1114111 <? c) || (244 <? b0)
                                   then Err EUnicodeDecode
                                   else rcons c (utf8_decode r3)
                             end
                    end
           end
  end.

(** UTF-16 code units *)
Definition utf16_units1 (c : Z) : res (list Z) :=
  if c <? 0 then Err EUnicodeEncode
  else if is_surrogate c then Err EUnicodeEncode
  else if c <? 65536 then Ok [c]
  else if c <? 1114112 then
    Ok [55296 + (c - 65536) / 1024; 56320 + (c - 65536) mod 1024]
  else Err EUnicodeEncode.

Fixpoint utf16_units (s : pystr) : res (list Z) :=
  match s with
  | [] => Ok []
  | c :: s' => rbind (utf16_units1 c) (fun a => rbind (utf16_units s') (fun b => Ok (a ++ b)))
  end.

Fixpoint units_to_le (l : list Z) : bytes :=
  match l with [] => [] | x :: r => (x mod 256) :: (x / 256) :: units_to_le r end.

Definition utf16_encode (s : pystr) : res bytes :=
  rbind (utf16_units s) (fun l => Ok (255 :: 254 :: units_to_le l)).

Fixpoint le_to_units (b : bytes) : res (list Z) :=
  match b with
  | [] => Ok []
  | x :: r => match r with
              | [] => Err EUnicodeDecode
              | y :: r' => rcons (x + 256 * y) (le_to_units r')
              end
  end.
Fixpoint be_to_units (b : bytes) : res (list Z) :=
  match b with
  | [] => Ok []
  | x :: r => match r with
              | [] => Err EUnicodeDecode
              | y :: r' => rcons (256 * x + y) (be_to_units r')
              end
  end.

Definition is_high (x : Z) : bool := (55296 <=? x) && (x <=? 56319).
Definition is_low (x : Z) : bool := (56320 <=? x) && (x <=? 57343).

Fixpoint units_decode (l : list Z) : res pystr :=
  match l with
  | [] => Ok []
  | x :: r =>
      if is_high x then
        match r with
        | [] => Err EUnicodeDecode
        | y :: r' =>
            if is_low y
            then rcons (65536 + (x - 55296) * 1024 + (y - 56320)) (units_decode r')
            else Err EUnicodeDecode
        end
      else if is_low x then Err EUnicodeDecode
      else rcons x (units_decode r)
  end.

Definition utf16_decode (b : bytes) : res pystr :=
  match b with
  | 255 :: 254 :: r => rbind (le_to_units r) units_decode
  | 254 :: 255 :: r => rbind (be_to_units r) units_decode
  | _ => rbind (le_to_units b) units_decode
  end.

Definition encode (utf_16 : bool) (s : pystr) : res bytes :=
  if utf_16 then utf16_encode s else utf8_encode s.
Definition decode (utf_16 : bool) (b : bytes) : res pystr :=
  if utf_16 then utf16_decode b else utf8_decode b.
