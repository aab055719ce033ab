(** Model of /repo/screenlogicpy/requests/utility.py (and const/msg.py:3-7). *)
From Verif Require Import Py F64 Struct Utf.

(** const/msg.py:3-7 *)
Definition COM_MAX_RETRIES : Z := 1.
Definition COM_RETRY_WAIT : Z := 1.
Definition COM_TIMEOUT : Z := 2.
Definition HEADER_LENGTH : Z := 8.   (* struct.calcsize("<HHI") *)

(** utility.py:17-25 makeMessage: struct.pack("<HHI{n}s", msgID, msgCode, n, data) *)
Definition makeMessage (msgID msgCode : Z) (messageData : bytes) : res bytes :=
  rbind (pack_u 2 msgID) (fun a =>
  rbind (pack_u 2 msgCode) (fun b =>
  rbind (pack_u 4 (zlen messageData)) (fun c =>
  Ok (a ++ b ++ c ++ messageData)))).

Definition message : Type := Z * Z * bytes.

(** utility.py:28-38 takeMessage.  [struct.unpack] needs the exact size, which holds by
    construction once the format is valid (len >= 8). *)
Definition takeMessage (data : bytes) : res message :=
  let messageBytes := zlen data - HEADER_LENGTH in
  if messageBytes <? 0 then Err EStruct
  else
    let msgID := le_dec (slice 0 2 data) in
    let msgCode := le_dec (slice 2 2 data) in
    let msgLen := le_dec (slice 4 4 data) in
    let msgData := slice 8 messageBytes data in
    if negb (msgLen =? messageBytes) then Err ESLError
    else Ok (msgID, msgCode, msgData).

(** utility.py:102-105 getSome *)
Definition getSome (f : fmt) (buff : bytes) (offset : Z) : res (Z * Z) :=
  rbind (unpack_from f buff offset) (fun v => Ok (v, offset + fsize f)).

(** getSome(f"{n}s", buff, offset): utility.py:49, discovery.py:60 *)
Definition getSomeBytes (n : Z) (buff : bytes) (offset : Z) : res (bytes * Z) :=
  rbind (unpack_bytes_from n buff offset) (fun v => Ok (v, offset + n)).

(** utility.py:41-55 takeMessages.  The while loop runs on fuel; each round consumes at
    least 8 bytes, so fuel = length of the buffer always suffices (proved).
    [None] would mean out of fuel. *)
Fixpoint takeMessages_loop (fuel : nat) (data : bytes) (pos : Z) (acc : list message)
  : option (res (list message)) :=
  if pos <? zlen data then
    match fuel with
    | O => None
    | S fuel' =>
        match getSome FH data pos with
        | Err _ => Some (Err ESLError)
        | Ok (msgID, pos) =>
        match getSome FH data pos with
        | Err _ => Some (Err ESLError)
        | Ok (msgCode, pos) =>
        match getSome FI data pos with
        | Err _ => Some (Err ESLError)
        | Ok (msgLength, pos) =>
        match getSomeBytes msgLength data pos with
        | Err _ => Some (Err ESLError)
        | Ok (message, pos) =>
            takeMessages_loop fuel' data pos (acc ++ [(msgID, msgCode, message)])
        end end end end
    end
  else Some (Ok acc).

Definition takeMessages (data : bytes) : option (res (list message)) :=
  takeMessages_loop (List.length data) data 0 [].

(** utility.py:58-67 encodeMessageString *)
Definition encodeMessageString (s : pystr) (utf_16 : bool) : res bytes :=
  rbind (encode utf_16 s) (fun data =>
  let length := zlen data in
  let over := length mod 4 in
  let pad := if 0 <? over then 4 - over else 0 in
  let total := length + pad in
  let word := if utf_16 then Z.lor length 2147483648 else length in
  rbind (pack_u 4 word) (fun w => Ok (w ++ pack_s total data))).

(** utility.py:70-78 decodeMessageString *)
Definition decodeMessageString (data : bytes) : res pystr :=
  rbind (unpack_from FI data 0) (fun size =>
  let utf_16 := negb (Z.land size 2147483648 =? 0) in
  let size := if utf_16 then Z.land size 2147483647 else size in
  rbind (unpack_bytes_from size data 4) (fun b => decode utf_16 b)).

(** datetime.datetime, naive fields only (time zone handled by the caller). *)
Record datetime := mkDT {
  dt_year : Z; dt_month : Z; dt_day : Z;
  dt_hour : Z; dt_minute : Z; dt_second : Z; dt_micro : Z }.

(** CPython Lib/datetime.py:_is_leap, _days_in_month, _days_before_month,
    _days_before_year, _ymd2ord (proleptic Gregorian calendar). *)
Definition is_leap (y : Z) : bool :=
  (y mod 4 =? 0) && (negb (y mod 100 =? 0) || (y mod 400 =? 0)).
Definition days_in_month (y m : Z) : Z :=
  if m =? 2 then (if is_leap y then 29 else 28)
  else if (m =? 4) || (m =? 6) || (m =? 9) || (m =? 11) then 30 else 31.
Definition days_before_month (y m : Z) : Z :=
  nth (Z.to_nat m) [0; 0; 31; 59; 90; 120; 151; 181; 212; 243; 273; 304; 334] 0
  + (if (2 <? m) && is_leap y then 1 else 0).
Definition days_before_year (y : Z) : Z :=
  let y := y - 1 in y * 365 + y / 4 - y / 100 + y / 400.
Definition ymd2ord (y m d : Z) : Z := days_before_year y + days_before_month y m + d.

(** datetime(...) constructor checks. *)
Definition valid_dt (t : datetime) : bool :=
  (1 <=? dt_year t) && (dt_year t <=? 9999) && (1 <=? dt_month t) && (dt_month t <=? 12)
  && (1 <=? dt_day t) && (dt_day t <=? days_in_month (dt_year t) (dt_month t))
  && (0 <=? dt_hour t) && (dt_hour t <=? 23) && (0 <=? dt_minute t) && (dt_minute t <=? 59)
  && (0 <=? dt_second t) && (dt_second t <=? 59)
  && (0 <=? dt_micro t) && (dt_micro t <=? 999999).

Definition make_dt (t : datetime) : res datetime := if valid_dt t then Ok t else Err EValue.

(** datetime.weekday(): Monday is 0. *)
Definition weekday (t : datetime) : Z :=
  (ymd2ord (dt_year t) (dt_month t) (dt_day t) + 6) mod 7.

Fixpoint pack_Hs (l : list Z) : res bytes :=
  match l with
  | [] => Ok []
  | v :: l' => rbind (pack_u 2 v) (fun a => rbind (pack_Hs l') (fun b => Ok (a ++ b)))
  end.

(** utility.py:81-92 encodeMessageTime; int(microsecond / 1000) in floats. *)
Definition encodeMessageTime (t : datetime) : res bytes :=
  rbind (f_trunc (zdivf (dt_micro t) 1000)) (fun ms =>
  pack_Hs [dt_year t; dt_month t; weekday t; dt_day t; dt_hour t; dt_minute t; 0; ms]).

(** the eight words read by decodeMessageTime / getTime *)
Definition time_of_words (b : bytes) : res datetime :=
  let w i := le_dec (slice (2 * i) 2 b) in
  make_dt (mkDT (w 0) (w 1) (w 3) (w 4) (w 5) (w 6) (w 7 * 1000)).

(** utility.py:95-99 decodeMessageTime: struct.unpack needs exactly 16 bytes. *)
Definition decodeMessageTime (data : bytes) : res datetime :=
  if zlen data =? 16 then time_of_words data else Err EStruct.

(** utility.py:134-145 getTime *)
Definition getTime (buff : bytes) (offset : Z) : res (datetime * Z) :=
  rbind (unpack_bytes_from 16 buff offset) (fun b =>
  rbind (time_of_words b) (fun t => Ok (t, offset + 16))).

Definition is_nul (c : Z) : bool := c =? 0.

(** utility.py:108-121 getString *)
Definition getString (buff : bytes) (offset : Z) : res (pystr * Z) :=
  let offsetLen := offset + 4 in
  rbind (unpack_from FI buff offset) (fun sLen =>
  let utf_16 := negb (Z.land sLen 2147483648 =? 0) in
  let sLen := if utf_16 then Z.land sLen 2147483647 else sLen in
  let sLen := if negb (sLen mod 4 =? 0) then sLen + (4 - sLen mod 4) else sLen in
  let newoffset := offsetLen + sLen in
  rbind (unpack_bytes_from sLen buff offsetLen) (fun padded =>
  rbind (decode utf_16 padded) (fun s => Ok (strip is_nul s, newoffset)))).

(** the loop of getArray: items i .. i+n-1 *)
Fixpoint getArray_items (n : nat) (buff : bytes) (at_ : Z) : res (list Z) :=
  match n with
  | O => Ok []
  | S n' => rbind (getSome FB buff at_) (fun x =>
            rbind (getArray_items n' buff (at_ + 1)) (fun r => Ok (fst x :: r)))
  end.

(** utility.py:124-131 getArray.  (The pre-allocated list of zeros is not observable.) *)
Definition getArray (buff : bytes) (offset : Z) : res (list Z * Z) :=
  rbind (getSome FI buff offset) (fun r =>
  let '(itemCount, aStart) := r in
  rbind (getArray_items (Z.to_nat itemCount) buff aStart) (fun items =>
  let short := itemCount mod 4 in
  let paddedLen := if short =? 0 then itemCount else itemCount + 4 - short in
  Ok (items, aStart + paddedLen))).
