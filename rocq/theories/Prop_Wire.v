(** Property theorems C01-C03, C06-C10: the wire vocabulary (requests/utility.py).
    Statements use Spec.v only, besides the modelled API functions. *)
From Verif Require Import Py F64 Struct Utf Utility Spec P_Base P_Util P_Str P_Float P_Time.

(** C01. makeMessage succeeds exactly for 16-bit id/code and 32-bit length, produces the
    documented layout, and takeMessage inverts it. *)
Theorem C01_make_take id code payload :
  (is_u16 id /\ is_u16 code /\ zlen payload < 4294967296 ->
     makeMessage id code payload = Ok (frame (id, code, payload))
     /\ takeMessage (frame (id, code, payload)) = Ok (id, code, payload))
  /\ (~ (is_u16 id /\ is_u16 code /\ zlen payload < 4294967296) ->
     makeMessage id code payload = Err EStruct).
Proof.
  split.
  - intros (H1 & H2 & H3). split; [|apply takeMessage_frame; assumption].
    rewrite makeMessage_spec. unfold is_u16 in *. replace (_ && _) with true by lia. reflexivity.
  - intros N. rewrite makeMessage_spec. unfold is_u16 in *.
    destruct (_ && _) eqn:E; [exfalso; apply N; lia | reflexivity].
Qed.
Print Assumptions C01_make_take.
Example C01_nonvacuous : makeMessage 7 12526 [0;0;0;0] = Ok [7;0;238;48;4;0;0;0;0;0;0;0]
  /\ makeMessage 65536 1 [] = Err EStruct.
Proof. split; reflexivity. Qed.

(** C02. takeMessage accepts exactly the frames; the three outcomes are exhaustive. *)
Theorem C02_take_exact b : wf_bytes b ->
  (exists m, wf_msg m /\ b = frame m /\ takeMessage b = Ok m)
  \/ (zlen b < 8 /\ takeMessage b = Err EStruct)
  \/ (exists h n rest, b = h ++ u32le n ++ rest /\ zlen h = 4 /\ is_u32 n /\ n <> zlen rest
      /\ takeMessage b = Err ESLError).
Proof. exact (takeMessage_cases b). Qed.
Print Assumptions C02_take_exact.
Theorem C02_take_only_frames b id code payload : wf_bytes b ->
  takeMessage b = Ok (id, code, payload) -> b = frame (id, code, payload) /\ makeMessage id code payload = Ok b.
Proof. exact (takeMessage_only b id code payload). Qed.
Print Assumptions C02_take_only_frames.
Example C02_nonvacuous : takeMessage [7;0;238;48;1;0;0;0;9] = Ok (7, 12526, [9])
  /\ takeMessage [1;2;3] = Err EStruct /\ takeMessage [7;0;238;48;2;0;0;0;9] = Err ESLError.
Proof. repeat split. Qed.

(** C03. takeMessages on any concatenation of frames returns that list; on anything else it
    raises ScreenLogicError - it never returns a prefix, and it always terminates. *)
Theorem C03_take_messages ms : Forall wf_msg ms ->
  takeMessages (List.concat (map frame ms)) = Some (Ok ms).
Proof. exact (takeMessages_frames ms). Qed.
Print Assumptions C03_take_messages.
Theorem C03_take_messages_total b : wf_bytes b ->
  (exists ms, takeMessages b = Some (Ok ms) /\ Forall wf_msg ms /\ b = List.concat (map frame ms))
  \/ ((forall ms, Forall wf_msg ms -> b <> List.concat (map frame ms)) /\ takeMessages b = Some (Err ESLError)).
Proof. exact (takeMessages_exact b). Qed.
Print Assumptions C03_take_messages_total.
Example C03_nonvacuous :
  takeMessages (frame (1, 2, [3]) ++ frame (4, 5, [])) = Some (Ok [(1, 2, [3]); (4, 5, [])])
  /\ takeMessages (frame (1, 2, [3]) ++ [4; 0]) = Some (Err ESLError).
Proof. split; reflexivity. Qed.

(** C06. Message strings round trip, for both encodings. *)
Theorem C06_string_round_trip utf_16 s : Forall scalar s ->
  exists e, encode utf_16 s = Ok e /\
  (zlen e < 2147483648 ->
   exists b, encodeMessageString s utf_16 = Ok b
     /\ b = wire_string utf_16 e /\ wf_bytes b /\ zlen b mod 4 = 0
     /\ decodeMessageString b = Ok s).
Proof. exact (string_rt_full utf_16 s). Qed.
Print Assumptions C06_string_round_trip.
Example C06_nonvacuous :
  encodeMessageString [80; 233; 128640] true = Ok [10;0;0;128; 255;254;80;0;233;0;61;216;128;222;0;0]
  /\ encodeMessageString [80; 233; 128640] false = Ok [7;0;0;0; 80;195;169;240;159;154;128;0].
Proof. split; reflexivity. Qed.

(** C07. A string field inside a message is read back, with the offset of the next field. *)
Theorem C07_string_field utf_16 s e before after : Forall scalar s -> encode utf_16 s = Ok e ->
  zlen e < 2147483644 ->
  exists t, stripped s t /\
  getString (before ++ wire_string utf_16 e ++ after) (zlen before)
  = Ok (t, zlen before + zlen (wire_string utf_16 e)).
Proof. exact (getString_field utf_16 s e before after). Qed.
Print Assumptions C07_string_field.
Example C07_nonvacuous :
  getString ([9;9] ++ wire_string false [80;111;111;108;50] ++ [1]) 2 = Ok ([80;111;111;108;50], 14).
Proof. reflexivity. Qed.

(** C08. Time encoding. *)
Theorem C08_time t : valid_dt t = true ->
  exists b, encodeMessageTime t = Ok b
  /\ b = wire_time (dt_year t) (dt_month t) (day_of_week (dt_year t) (dt_month t) (dt_day t)) (dt_day t)
           (dt_hour t) (dt_minute t) 0 (dt_micro t / 1000)
  /\ decodeMessageTime b =
     Ok (mkDT (dt_year t) (dt_month t) (dt_day t) (dt_hour t) (dt_minute t) 0 (dt_micro t / 1000 * 1000)).
Proof. exact (time_full t). Qed.
Print Assumptions C08_time.
Example C08_nonvacuous : valid_dt (mkDT 2024 2 29 23 59 58 999999) = true
  /\ day_of_week 2024 2 29 = 3.
Proof. split; reflexivity. Qed.

(** C09. Array fields. *)
Theorem C09_array items padding before after :
  zlen items < 4294967296 -> zlen padding = pad4 (zlen items) ->
  getArray (before ++ wire_array items padding ++ after) (zlen before)
  = Ok (items, zlen before + zlen (wire_array items padding)).
Proof. exact (getArray_field items padding before after). Qed.
Print Assumptions C09_array.
Theorem C09_array_truncated n before short : 0 < n < 4294967296 -> zlen short < n ->
  getArray (before ++ u32le n ++ short) (zlen before) = Err EStruct.
Proof. exact (getArray_short n before short). Qed.
Print Assumptions C09_array_truncated.
Theorem C09_array_no_count before short : zlen short < 4 ->
  getArray (before ++ short) (zlen before) = Err EStruct.
Proof. exact (getArray_nohdr before short). Qed.
Print Assumptions C09_array_no_count.
Example C09_nonvacuous : getArray [5;5;0;0;0;1;2;3;4;5;0;0;0;77] 1 = Ok ([1;2;3;4;5], 13).
Proof. reflexivity. Qed.

(** C10. Field reads. [denotes] (P_Util.v) gives the integer denoted by the bytes of a field,
    byte by byte, for each format. *)
Theorem C10_field_reads f b off : wf_bytes b -> 0 <= off ->
  getSome f b off =
  if off + fsize f <=? zlen b
  then Ok (denotes f (firstn (Z.to_nat (fsize f)) (skipn (Z.to_nat off) b)), off + fsize f)
  else Err EStruct.
Proof. exact (getSome_spec f b off). Qed.
Print Assumptions C10_field_reads.
Example C10_nonvacuous : getSome Fi [1;254;255;255;255] 1 = Ok (-2, 5) /\ getSome FbH [1;2;3] 1 = Ok (515, 3)
  /\ getSome FH [1;2] 1 = Err EStruct.
Proof. repeat split. Qed.
