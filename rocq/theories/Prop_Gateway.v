(** Theorems about the gateway's data access and setters (C43-C55).

    A call of the API is a function of the world (World.v), whose script [w_env] holds the
    environment's answer to every wait; [n] bounds the nesting of reconnects (see C63).  The
    theorems hold for all worlds.  Vocabulary: Paths.v for the data tree ([leads d p v]: the
    path [p] leads to [v]; [chosen arg d p v]: [v] is the argument given or else the value
    the controller reported at [p]; [listed d section id]), Traces.v for traces.  [ready c w]
    (P_Gw1.v): the gateway's connection is [c], up, not being closed. *)
From Verif Require Import SpecParse P_Num.
From Verif Require Import Py F64 Struct Utf Utility Const Spec Enum Decode Messages Meaning Calls World Request Gateway Traces Paths
  P_Base P_Util P_Request P_Paths P_Ph P_Gw1 P_Gw2 P_Gw3 P_Gw4 P_Gw5 P_Vals1 P_Decode Prop_Decode Prop_Request.

(** a gateway connected to a pool: configuration, status, chemistry, chlorinator and clock read *)
Definition some_time : bytes := wire_time 2024 2 4 29 23 58 41 250 ++ u32le 1.
Definition pool_data : dict :=
  history [DConfig (wire_config some_config); DStatus (wire_status some_status); DChem (wire_chem some_chem);
           DScg (wire_scg some_scg); DDate (S754_zero false) some_time] [].
Definition pool_world (env : list resp) : world := set_data pool_data (live_world env).
Example pool_ready env : ready 0 (pool_world env).
Proof. repeat split. Qed.

(** C43. *)
Theorem C43_get_data p d x : get_data false p d = Ok x <->
  leads (VDict d) p x \/ (x = VNone /\ forall y, ~ leads (VDict d) p y).
Proof. rewrite get_data_iff. split; [intros [H|(_ & H)]; auto|intros [H|H]; auto]. Qed.
Print Assumptions C43_get_data.
Theorem C43_get_data_all s d : get_data s [] d = Ok (VDict d).
Proof. reflexivity. Qed.
Print Assumptions C43_get_data_all.
(** paths compose; a path leads to at most one value *)
Theorem C43_compose v p q x : leads v (p ++ q) x <-> exists m, leads v p m /\ leads m q x.
Proof. exact (leads_app p v q x). Qed.
Print Assumptions C43_compose.
Theorem C43_functional v p x y : leads v p x -> leads v p y -> x = y.
Proof. exact (leads_fun p v x y). Qed.
Print Assumptions C43_functional.
Example C43_nonvacuous :
  get_data false [KS "controller"; KS "configuration"; KS "color"; KI 0; KS "name"] pool_data = Ok (VStr (u "White")) /\
  get_data false [KS "controller"; KS "configuration"; KS "color"; KI 1; KS "name"] pool_data = Ok VNone /\
  get_data false [KS "controller"; KS "configuration"; KS "color"; KI (-1); KS "name"] pool_data = Ok VNone /\
  get_data false [KS "circuit"; KI 500; KS "value"] pool_data = Ok (VInt 1).
Proof. vm_compute. auto. Qed.

(** C44. *)
Theorem C44_get_value s p d : get_value s p d = get_data s (p ++ [KS "value"]) d.
Proof. exact (get_value_eq s p d). Qed.
Print Assumptions C44_get_value.
Theorem C44_get_name s p d : get_name s p d = get_data s (p ++ [KS "name"]) d.
Proof. exact (get_name_eq s p d). Qed.
Print Assumptions C44_get_name.
Example C44_nonvacuous :
  get_value true [KS "circuit"; KI 505] pool_data = Ok (VInt 0) /\ get_name false [KS "circuit"; KI 505] pool_data = Ok (VStr (u "Pool")) /\
  get_value true [KS "circuit"; KI 7] pool_data = Err EKey /\ get_value false [KS "circuit"; KI 7] pool_data = Ok VNone.
Proof. vm_compute. auto. Qed.

(** C45. *)
Theorem C45_strict_raises p d : get_data true p d = Err EKey <-> (p <> [] /\ get_data false p d = Ok VNone).
Proof. exact (strict_key p d). Qed.
Print Assumptions C45_strict_raises.
Theorem C45_strict_same p d : get_data true p d = Err EKey \/ get_data true p d = get_data false p d.
Proof. exact (strict_same p d). Qed.
Print Assumptions C45_strict_same.
Example C45_nonvacuous :
  get_data true [KS "circuit"; KI 505; KS "value"] pool_data = Ok (VInt 0) /\
  get_data true [KS "circuit"; KI 506; KS "value"] pool_data = Err EKey.
Proof. vm_compute. auto. Qed.

(** C46. *)
Theorem C46_only_valid n circuit state w t w' o c p : async_set_circuit n circuit state w = (t, w', o) ->
  In (Send c 12530 p) t ->
  exists id st, circuit = VInt id /\ state = VInt st /\ listed (w_data w) (KS "circuit") id /\ is_u32 id /\ (st = 0 \/ st = 1) /\
    p = u32le 0 ++ u32le id ++ u32le st.
Proof. exact (set_circuit_only n circuit state w t w' o c p). Qed.
Print Assumptions C46_only_valid.
Theorem C46_invalid_rejected n id st w : ~ listed (w_data w) (KS "circuit") id \/ (st <> 0 /\ st <> 1) ->
  exists e, async_set_circuit n (VInt id) (VInt st) w = ([], w, Exc e) /\
    ((exists m, entry (w_data w) (KS "circuit") (VDict m)) -> e = EValue).
Proof. exact (set_circuit_rejected n id st w). Qed.
Print Assumptions C46_invalid_rejected.
Theorem C46_valid_sent n c id st w r rest l w1 : ready c w -> 0 <= w_retries w ->
  listed (w_data w) (KS "circuit") id -> is_u32 id -> st = 0 \/ st = 1 ->
  w_env w = r :: rest -> interfere r (set_env rest w) = (l, w1) -> answer_of r = Some (12531, []) ->
  async_set_circuit (S n) (VInt id) (VInt st) w =
    (Send c 12530 (u32le 0 ++ u32le id ++ u32le st) :: AwaitReply c 2000 :: Got r :: l, w1, Val tt).
Proof. exact (set_circuit_sent n c id st w r rest l w1). Qed.
Print Assumptions C46_valid_sent.
Example C46_nonvacuous :
  let ok := says (KReply 12531 []) in
  (exists w', async_set_circuit 1 (VInt 505) (VInt 1) (pool_world [ok]) =
     ([Send 0 12530 [0;0;0;0; 249;1;0;0; 1;0;0;0]; AwaitReply 0 2000; Got ok], w', Val tt)) /\
  async_set_circuit 1 (VInt 506) (VInt 1) (pool_world [ok]) = ([], pool_world [ok], Exc EValue) /\
  async_set_circuit 1 (VInt 505) (VInt 2) (pool_world [ok]) = ([], pool_world [ok], Exc EValue).
Proof. split; [eexists; vm_compute; reflexivity|]. vm_compute. auto. Qed.

(** C47.  The limits are numbers; decoded data holds integers (C29). *)
Theorem C47_within_limits n body temp w t w' o c p : async_set_heat_temp n body temp w = (t, w', o) ->
  In (Send c 12528 p) t ->
  exists b z lo hi, body = VInt b /\ temp = VInt z /\ listed (w_data w) (KS "body") b /\ is_u32 b /\ is_u32 z /\
    leads (VDict (w_data w)) [KS "body"; KI b; KS "min_setpoint"] lo /\
    leads (VDict (w_data w)) [KS "body"; KI b; KS "max_setpoint"] hi /\
    is_number lo /\ is_number hi /\ (forall a, lo = VInt a -> a <= z) /\ (forall a, hi = VInt a -> z <= a) /\
    p = u32le 0 ++ u32le b ++ u32le z.
Proof. exact (set_heat_temp_only n body temp w t w' o c p). Qed.
Print Assumptions C47_within_limits.
Theorem C47_invalid_rejected n b z w : ~ listed (w_data w) (KS "body") b \/
   (exists lo, leads (VDict (w_data w)) [KS "body"; KI b; KS "min_setpoint"] (VInt lo) /\ z < lo) \/
   (exists lo hi, leads (VDict (w_data w)) [KS "body"; KI b; KS "min_setpoint"] (VInt lo) /\
                  leads (VDict (w_data w)) [KS "body"; KI b; KS "max_setpoint"] (VInt hi) /\ hi < z) ->
  exists e, async_set_heat_temp n (VInt b) (VInt z) w = ([], w, Exc e) /\
    ((exists m, entry (w_data w) (KS "body") (VDict m)) -> e = EValue).
Proof. exact (set_heat_temp_rejected n b z w). Qed.
Print Assumptions C47_invalid_rejected.
Theorem C47_valid_sent n c b z lo hi w r rest l w1 : ready c w -> 0 <= w_retries w ->
  listed (w_data w) (KS "body") b -> is_u32 b -> is_u32 z ->
  leads (VDict (w_data w)) [KS "body"; KI b; KS "min_setpoint"] (VInt lo) ->
  leads (VDict (w_data w)) [KS "body"; KI b; KS "max_setpoint"] (VInt hi) -> lo <= z <= hi ->
  w_env w = r :: rest -> interfere r (set_env rest w) = (l, w1) -> answer_of r = Some (12529, []) ->
  async_set_heat_temp (S n) (VInt b) (VInt z) w =
    (Send c 12528 (u32le 0 ++ u32le b ++ u32le z) :: AwaitReply c 2000 :: Got r :: l, w1, Val tt).
Proof. exact (set_heat_temp_sent n c b z lo hi w r rest l w1). Qed.
Print Assumptions C47_valid_sent.
Example C47_nonvacuous :
  let ok := says (KReply 12529 []) in
  (exists w', async_set_heat_temp 1 (VInt 1) (VInt 104) (pool_world [ok]) =
     ([Send 0 12528 [0;0;0;0; 1;0;0;0; 104;0;0;0]; AwaitReply 0 2000; Got ok], w', Val tt)) /\
  async_set_heat_temp 1 (VInt 1) (VInt 105) (pool_world [ok]) = ([], pool_world [ok], Exc EValue) /\
  async_set_heat_temp 1 (VInt 1) (VInt 39) (pool_world [ok]) = ([], pool_world [ok], Exc EValue) /\
  async_set_heat_temp 1 (VInt 2) (VInt 80) (pool_world [ok]) = ([], pool_world [ok], Exc EValue).
Proof. split; [eexists; vm_compute; reflexivity|]. vm_compute. auto. Qed.

(** C48. *)
Theorem C48_only_valid n body mode w t w' o c p : async_set_heat_mode n body mode w = (t, w', o) ->
  In (Send c 12538 p) t ->
  exists b m, body = VInt b /\ mode = VInt m /\ listed (w_data w) (KS "body") b /\ is_u32 b /\ 0 <= m <= 4 /\
    p = u32le 0 ++ u32le b ++ u32le m.
Proof. exact (set_heat_mode_only n body mode w t w' o c p). Qed.
Print Assumptions C48_only_valid.
Theorem C48_invalid_rejected n b m w : ~ listed (w_data w) (KS "body") b \/ ~ 0 <= m <= 4 ->
  exists e, async_set_heat_mode n (VInt b) (VInt m) w = ([], w, Exc e) /\
    ((exists x, entry (w_data w) (KS "body") (VDict x)) -> e = EValue).
Proof. exact (set_heat_mode_rejected n b m w). Qed.
Print Assumptions C48_invalid_rejected.
Theorem C48_valid_sent n c b m w r rest l w1 : ready c w -> 0 <= w_retries w ->
  listed (w_data w) (KS "body") b -> is_u32 b -> 0 <= m <= 4 ->
  w_env w = r :: rest -> interfere r (set_env rest w) = (l, w1) -> answer_of r = Some (12539, []) ->
  async_set_heat_mode (S n) (VInt b) (VInt m) w =
    (Send c 12538 (u32le 0 ++ u32le b ++ u32le m) :: AwaitReply c 2000 :: Got r :: l, w1, Val tt).
Proof. exact (set_heat_mode_sent n c b m w r rest l w1). Qed.
Print Assumptions C48_valid_sent.
Example C48_nonvacuous :
  let ok := says (KReply 12539 []) in
  (exists w', async_set_heat_mode 1 (VInt 0) (VInt 4) (pool_world [ok]) =
     ([Send 0 12538 [0;0;0;0; 0;0;0;0; 4;0;0;0]; AwaitReply 0 2000; Got ok], w', Val tt)) /\
  async_set_heat_mode 1 (VInt 0) (VInt 5) (pool_world [ok]) = ([], pool_world [ok], Exc EValue) /\
  async_set_heat_mode 1 (VInt 0) (VInt (-1)) (pool_world [ok]) = ([], pool_world [ok], Exc EValue).
Proof. split; [eexists; vm_compute; reflexivity|]. vm_compute. auto. Qed.

(** C49. *)
Theorem C49_only_valid n cmd w t w' o c p : async_set_color_lights n cmd w = (t, w', o) ->
  In (Send c 12556 p) t -> exists z, cmd = VInt z /\ 0 <= z <= 21 /\ p = u32le 0 ++ u32le z.
Proof. exact (set_lights_only n cmd w t w' o c p). Qed.
Print Assumptions C49_only_valid.
Theorem C49_invalid_rejected n z w : ~ 0 <= z <= 21 -> async_set_color_lights n (VInt z) w = ([], w, Exc EValue).
Proof. exact (set_lights_rejected n z w). Qed.
Print Assumptions C49_invalid_rejected.
Theorem C49_valid_sent n c z w r rest l w1 : ready c w -> 0 <= w_retries w -> 0 <= z <= 21 ->
  w_env w = r :: rest -> interfere r (set_env rest w) = (l, w1) -> answer_of r = Some (12557, []) ->
  async_set_color_lights (S n) (VInt z) w =
    (Send c 12556 (u32le 0 ++ u32le z) :: AwaitReply c 2000 :: Got r :: l, w1, Val tt).
Proof. exact (set_lights_sent n c z w r rest l w1). Qed.
Print Assumptions C49_valid_sent.
Example C49_nonvacuous :
  let ok := says (KReply 12557 []) in
  exists w', async_set_color_lights 1 (VInt 21) (pool_world [ok]) =
     ([Send 0 12556 [0;0;0;0; 21;0;0;0]; AwaitReply 0 2000; Got ok], w', Val tt).
Proof. eexists; vm_compute; reflexivity. Qed.

(** C50. *)
Theorem C50_only_in_range n pool spa super timer w t w' o c p : async_set_scg_config n pool spa super timer w = (t, w', o) ->
  In (Send c 12576 p) t ->
  exists a b s k, p = u32le 0 ++ u32le a ++ u32le b ++ u32le s ++ u32le k /\
    0 <= a <= 100 /\ 0 <= b <= 100 /\ (s = 0 \/ s = 1) /\ 0 <= k <= 72 /\
    chosen pool (w_data w) [KS "scg"; KS "configuration"; KS "pool_setpoint"; KS "value"] (VInt a) /\
    chosen spa (w_data w) [KS "scg"; KS "configuration"; KS "spa_setpoint"; KS "value"] (VInt b) /\
    chosen timer (w_data w) [KS "scg"; KS "configuration"; KS "super_chlor_timer"; KS "value"] (VInt k) /\
    exists v, chosen super (w_data w) [KS "scg"; KS "super_chlorinate"; KS "value"] v /\
      (forall y, v = VInt y -> y = 0 \/ y = 1 -> s = y).
Proof. exact (set_scg_only n pool spa super timer w t w' o c p). Qed.
Print Assumptions C50_only_in_range.
Theorem C50_out_of_range_rejected n pool spa super timer w z :
  ((pool = Some (VInt z) \/ spa = Some (VInt z)) /\ ~ 0 <= z <= 100) \/ (timer = Some (VInt z) /\ ~ 0 <= z <= 72) ->
  exists e, async_set_scg_config n pool spa super timer w = ([], w, Exc e).
Proof. exact (set_scg_rejected n pool spa super timer w z). Qed.
Print Assumptions C50_out_of_range_rejected.
Theorem C50_valid_sent n c pool spa super timer a b s k w r rest l w1 : ready c w -> 0 <= w_retries w ->
  chosen pool (w_data w) [KS "scg"; KS "configuration"; KS "pool_setpoint"; KS "value"] (VInt a) ->
  chosen spa (w_data w) [KS "scg"; KS "configuration"; KS "spa_setpoint"; KS "value"] (VInt b) ->
  chosen super (w_data w) [KS "scg"; KS "super_chlorinate"; KS "value"] (VInt s) ->
  chosen timer (w_data w) [KS "scg"; KS "configuration"; KS "super_chlor_timer"; KS "value"] (VInt k) ->
  0 <= a <= 100 -> 0 <= b <= 100 -> s = 0 \/ s = 1 -> 0 <= k <= 72 ->
  w_env w = r :: rest -> interfere r (set_env rest w) = (l, w1) -> answer_of r = Some (12577, []) ->
  async_set_scg_config (S n) pool spa super timer w =
    (Send c 12576 (u32le 0 ++ u32le a ++ u32le b ++ u32le s ++ u32le k) :: AwaitReply c 2000 :: Got r :: l, w1, Val tt).
Proof. exact (set_scg_sent n c pool spa super timer a b s k w r rest l w1). Qed.
Print Assumptions C50_valid_sent.
Example C50_nonvacuous :
  let ok := says (KReply 12577 []) in
  (exists w', async_set_scg_config 1 (Some (VInt 55)) None None None (pool_world [ok]) =
     ([Send 0 12576 (u32le 0 ++ u32le 55 ++ u32le 5 ++ u32le 0 ++ u32le 12); AwaitReply 0 2000; Got ok], w', Val tt)) /\
  async_set_scg_config 1 (Some (VInt 101)) None None None (pool_world [ok]) = ([], pool_world [ok], Exc ESLError).
Proof. split; [eexists; vm_compute; reflexivity|]. vm_compute. auto. Qed.

(** C53 fails: any integer but 1 is accepted and sent as 0 (off). *)
Theorem C53_invalid_rejected_refuted n c a b k y w r rest l w1 : ready c w -> 0 <= w_retries w ->
  0 <= a <= 100 -> 0 <= b <= 100 -> 0 <= k <= 72 -> y <> 1 ->
  w_env w = r :: rest -> interfere r (set_env rest w) = (l, w1) -> answer_of r = Some (12577, []) ->
  async_set_scg_config (S n) (Some (VInt a)) (Some (VInt b)) (Some (VInt y)) (Some (VInt k)) w =
    (Send c 12576 (u32le 0 ++ u32le a ++ u32le b ++ u32le 0 ++ u32le k) :: AwaitReply c 2000 :: Got r :: l, w1, Val tt).
Proof. exact (set_scg_invalid_sent n c a b k y w r rest l w1). Qed.
Print Assumptions C53_invalid_rejected_refuted.
(** What holds: the value on the wire is 0 or 1, and a valid argument is sent as given. *)
Theorem C53_wire_value_partial n pool spa y timer w t w' o c p :
  async_set_scg_config n pool spa (Some (VInt y)) timer w = (t, w', o) -> In (Send c 12576 p) t ->
  exists a b s k, p = u32le 0 ++ u32le a ++ u32le b ++ u32le s ++ u32le k /\ (s = 0 \/ s = 1) /\ (y = 0 \/ y = 1 -> s = y).
Proof.
  intros E I. destruct (set_scg_only _ _ _ _ _ _ _ _ _ _ _ E I) as (a & b & s & k & -> & _ & _ & S & _ & _ & _ & _ & v & V & H).
  exists a, b, s, k. split; [reflexivity|]. split; [exact S|]. apply H. exact V.
Qed.
Print Assumptions C53_wire_value_partial.
Example C53_nonvacuous :
  let ok := says (KReply 12577 []) in
  exists w', async_set_scg_config 1 None None (Some (VInt 2)) None (pool_world [ok]) =
     ([Send 0 12576 (u32le 0 ++ u32le 51 ++ u32le 5 ++ u32le 0 ++ u32le 12); AwaitReply 0 2000; Got ok], w', Val tt).
Proof. eexists; vm_compute; reflexivity. Qed.

(** C51.  [times100 v = Ok (VInt h)]: int(v * 100) in binary64 arithmetic. *)
Theorem C51_only_in_range n ph orp ca alk cya salt w t w' o c p : async_set_chem_data n ph orp ca alk cya salt w = (t, w', o) ->
  In (Send c 12594 p) t ->
  exists h a b e f g v, p = u32le 0 ++ u32le h ++ u32le a ++ u32le b ++ u32le e ++ u32le f ++ u32le g /\
    720 <= h <= 760 /\ 400 <= a <= 800 /\ 25 <= b <= 800 /\ 25 <= e <= 800 /\ 0 <= f <= 201 /\ 500 <= g <= 6500 /\
    chosen ph (w_data w) [KS "intellichem"; KS "configuration"; KS "ph_setpoint"; KS "value"] v /\ times100 v = Ok (VInt h) /\
    chosen orp (w_data w) [KS "intellichem"; KS "configuration"; KS "orp_setpoint"; KS "value"] (VInt a) /\
    chosen ca (w_data w) [KS "intellichem"; KS "configuration"; KS "calcium_hardness"; KS "value"] (VInt b) /\
    chosen alk (w_data w) [KS "intellichem"; KS "configuration"; KS "total_alkalinity"; KS "value"] (VInt e) /\
    chosen cya (w_data w) [KS "intellichem"; KS "configuration"; KS "cya"; KS "value"] (VInt f) /\
    chosen salt (w_data w) [KS "intellichem"; KS "configuration"; KS "salt_tds_ppm"; KS "value"] (VInt g).
Proof. exact (set_chem_only n ph orp ca alk cya salt w t w' o c p). Qed.
Print Assumptions C51_only_in_range.
(** the range check of the pH set point decides [lies_between] *)
Lemma ph_not_between v : python_value v -> ~ lies_between (VFloat (zdivf 72 10)) v (VFloat (zdivf 76 10)) ->
  range_check CHEM_RANGE_PH_SETPOINT v <> Ok tt.
Proof.
  intros P N E. apply N. unfold range_check, in_range in E. cbn [r_min r_max CHEM_RANGE_PH_SETPOINT] in E.
  destruct (value_of v) as [x|] eqn:Ex.
  - assert (V1 : python_value (VFloat f7_2)) by (vm_compute; reflexivity).
    assert (V2 : python_value (VFloat f7_6)) by (vm_compute; reflexivity).
    destruct (num_leb_value _ v _ x V1 P eq_refl Ex) as [[E1 A]|[E1 _]]; rewrite E1 in E; cbn [rbind] in E; [|discriminate].
    destruct (num_leb_value v _ x _ P V2 Ex eq_refl) as [[E2 B]|[E2 _]]; rewrite E2 in E; cbn [rbind] in E; [|discriminate].
    exists (float_value f7_2), x, (float_value f7_6). auto.
  - rewrite num_leb_other in E by auto. discriminate.
Qed.
Theorem C51_out_of_range_rejected n ph orp ca alk cya salt w z :
  (orp = Some (VInt z) /\ ~ 400 <= z <= 800) \/ (ca = Some (VInt z) /\ ~ 25 <= z <= 800) \/ (alk = Some (VInt z) /\ ~ 25 <= z <= 800) \/
  (cya = Some (VInt z) /\ ~ 0 <= z <= 201) \/ (salt = Some (VInt z) /\ ~ 500 <= z <= 6500) \/
  (exists v, ph = Some v /\ python_value v /\ ~ lies_between (VFloat (zdivf 72 10)) v (VFloat (zdivf 76 10))) ->
  exists e, async_set_chem_data n ph orp ca alk cya salt w = ([], w, Exc e).
Proof.
  intros H. apply (set_chem_rejected n ph orp ca alk cya salt w z).
  destruct H as [H|[H|[H|[H|[H|(v & E & P & N)]]]]]; auto 6. do 5 right. exists v. split; [exact E|].
  exact (ph_not_between v P N).
Qed.
Print Assumptions C51_out_of_range_rejected.
Theorem C51_valid_sent n c ph orp ca alk cya salt h a b e f g w r rest l w1 : ready c w -> 0 <= w_retries w ->
  chosen ph (w_data w) [KS "intellichem"; KS "configuration"; KS "ph_setpoint"; KS "value"] (VFloat (zdivf h 100)) ->
  chosen orp (w_data w) [KS "intellichem"; KS "configuration"; KS "orp_setpoint"; KS "value"] (VInt a) ->
  chosen ca (w_data w) [KS "intellichem"; KS "configuration"; KS "calcium_hardness"; KS "value"] (VInt b) ->
  chosen alk (w_data w) [KS "intellichem"; KS "configuration"; KS "total_alkalinity"; KS "value"] (VInt e) ->
  chosen cya (w_data w) [KS "intellichem"; KS "configuration"; KS "cya"; KS "value"] (VInt f) ->
  chosen salt (w_data w) [KS "intellichem"; KS "configuration"; KS "salt_tds_ppm"; KS "value"] (VInt g) ->
  720 <= h <= 760 -> 400 <= a <= 800 -> 25 <= b <= 800 -> 25 <= e <= 800 -> 0 <= f <= 201 -> 500 <= g <= 6500 ->
  w_env w = r :: rest -> interfere r (set_env rest w) = (l, w1) -> answer_of r = Some (12595, []) ->
  async_set_chem_data (S n) ph orp ca alk cya salt w =
    (Send c 12594 (u32le 0 ++ u32le h ++ u32le a ++ u32le b ++ u32le e ++ u32le f ++ u32le g) :: AwaitReply c 2000 :: Got r :: l, w1, Val tt).
Proof. exact (set_chem_sent n c ph orp ca alk cya salt h a b e f g w r rest l w1). Qed.
Print Assumptions C51_valid_sent.
Example C51_nonvacuous :
  let ok := says (KReply 12595 []) in
  (exists w', async_set_chem_data 1 None (Some (VInt 700)) None None None None (pool_world [ok]) =
     ([Send 0 12594 (u32le 0 ++ u32le 760 ++ u32le 700 ++ u32le 800 ++ u32le 45 ++ u32le 45 ++ u32le 1000); AwaitReply 0 2000; Got ok], w', Val tt)) /\
  async_set_chem_data 1 None (Some (VInt 801)) None None None None (pool_world [ok]) = ([], pool_world [ok], Exc ESLError) /\
  async_set_chem_data 1 (Some (VFloat (zdivf 761 100))) None None None None None (pool_world [ok]) = ([], pool_world [ok], Exc ESLError).
Proof. split; [eexists; vm_compute; reflexivity|]. vm_compute. auto. Qed.

(** C52.  n/100 as the decoder computes it, and as a two-decimal literal is read (both are
    the correctly rounded quotient), passes the range check and gives n back. *)
Theorem C52_ph_round_trip n : 720 <= n <= 760 ->
  range_check CHEM_RANGE_PH_SETPOINT (VFloat (zdivf n 100)) = Ok tt /\ times100 (VFloat (zdivf n 100)) = Ok (VInt n).
Proof. exact (ph_exact n). Qed.
Print Assumptions C52_ph_round_trip.
(** ... and no other number in range, float or integer, leads outside 720..760 *)
Theorem C52_ph_in_range v z : range_check CHEM_RANGE_PH_SETPOINT v = Ok tt -> times100 v = Ok z ->
  exists n, z = VInt n /\ 720 <= n <= 760.
Proof. exact (ph_range v z). Qed.
Print Assumptions C52_ph_in_range.
(** the set point a chemistry message carries is sent back unchanged *)
Theorem C52_decoded_setpoint_kept n c m tail d orp w r rest l w1 : ready c w -> 0 <= w_retries w ->
  chem_ok m -> Shape.Shape d -> w_data w = fst (decode_chemistry (wire_chem m ++ tail) d) ->
  720 <= h_ph_set m <= 760 -> 25 <= h_calcium m <= 800 -> 25 <= h_alk m <= 800 -> 0 <= h_cya m <= 201 -> 10 <= h_salt m <= 130 ->
  400 <= orp <= 800 ->
  w_env w = r :: rest -> interfere r (set_env rest w) = (l, w1) -> answer_of r = Some (12595, []) ->
  async_set_chem_data (S n) None (Some (VInt orp)) None None None None w =
    (Send c 12594 (u32le 0 ++ u32le (h_ph_set m) ++ u32le orp ++ u32le (h_calcium m) ++ u32le (h_alk m)
       ++ u32le (h_cya m) ++ u32le (h_salt m * 50)) :: AwaitReply c 2000 :: Got r :: l, w1, Val tt).
Proof.
  intros K M CM SD W B1 B2 B3 B4 B5 B6 E I A. destruct (chem_vals m tail d CM SD) as (d' & D & H). rewrite D in W. cbn [fst] in W. subst d'.
  unfold all_hold in H. rewrite Forall_forall in H.
  assert (L : forall k v, In (chem4 "configuration" k "value" v) (chem_facts (temp_unit d) m) -> v <> VNone ->
     leads (VDict (w_data w)) [KS "intellichem"; KS "configuration"; KS k; KS "value"] v).
  { intros k v I1 N. apply pget_leads; [exact (H _ I1)|exact N]. }
  eapply set_chem_sent with (a := orp); try eassumption; try lia; try reflexivity;
    apply L; try discriminate; unfold chem_facts; cbn [In]; tauto.
Qed.
Print Assumptions C52_decoded_setpoint_kept.
Example C52_nonvacuous :
  times100 (VFloat (zdivf 729 100)) = Ok (VInt 729) /\ times100 (VFloat (zdivf 757 100)) = Ok (VInt 757) /\
  times100 (VFloat (zdivf 29 100)) = Ok (VInt 28).
Proof. vm_compute. auto. Qed.

(** C54.  The minute is the resolution: the seconds word is always 0. *)
Theorem C54_payload n t dst w tr w' o c p : async_set_date_time n t dst w = (tr, w', o) ->
  (forall t0, t = Some t0 -> valid_dt t0 = true) -> In (Send c 8112 p) tr ->
  exists t1 a,
    p = wire_time (dt_year t1) (dt_month t1) (day_of_week (dt_year t1) (dt_month t1) (dt_day t1)) (dt_day t1)
          (dt_hour t1) (dt_minute t1) 0 (dt_micro t1 / 1000) ++ u32le a /\
    is_u32 a /\ chosen dst (w_data w) [KS "controller"; KS "date_time"; KS "auto_dst"; KS "value"] (VInt a) /\
    match t with
    | Some t0 => t1 = t0
    | None => exists v, leads (VDict (w_data w)) [KS "controller"; KS "date_time"; KS "timestamp"] v /\
                        from_timestamp (h_tz (w_host w)) v = Ok t1
    end.
Proof. exact (set_date_time_only n t dst w tr w' o c p). Qed.
Print Assumptions C54_payload.
Theorem C54_sent n c t dst a w r rest l w1 : ready c w -> 0 <= w_retries w -> valid_dt t = true -> is_u32 a ->
  chosen dst (w_data w) [KS "controller"; KS "date_time"; KS "auto_dst"; KS "value"] (VInt a) ->
  w_env w = r :: rest -> interfere r (set_env rest w) = (l, w1) -> answer_of r = Some (8113, []) ->
  async_set_date_time (S n) (Some t) dst w =
    (Send c 8112 (wire_time (dt_year t) (dt_month t) (day_of_week (dt_year t) (dt_month t) (dt_day t)) (dt_day t)
       (dt_hour t) (dt_minute t) 0 (dt_micro t / 1000) ++ u32le a) :: AwaitReply c 2000 :: Got r :: l, w1, Val tt).
Proof. exact (set_date_time_sent n c t dst a w r rest l w1). Qed.
Print Assumptions C54_sent.
Theorem C54_neither_rejected n w : async_set_date_time n None None w = ([], w, Exc EValue).
Proof. exact (set_date_time_neither n w). Qed.
Print Assumptions C54_neither_rejected.
Example C54_nonvacuous :
  let ok := says (KReply 8113 []) in
  exists w', async_set_date_time 1 (Some (mkDT 2025 6 1 12 34 56 789000)) None (pool_world [ok]) =
     ([Send 0 8112 (wire_time 2025 6 6 1 12 34 0 789 ++ u32le 1); AwaitReply 0 2000; Got ok], w', Val tt).
Proof. eexists; vm_compute; reflexivity. Qed.

(** C55 fails when the host is not on UTC: the controller's local time is read as if it were
    UTC and sent back as the host's local time.  The controller said 2024-02-29 23:58; a host
    one hour east of UTC sends 2024-03-01 00:58. *)
Definition in_zone (tz : Z) (w : world) : world :=
  mkW (w_addr w) (w_cb w) (w_proto w) (w_data w) (w_last w) (w_retries w) (w_cm w) (w_conns w) (w_env w) (w_clock w)
      (mkHost (h_float (w_host w)) (fun _ => tz)).
Theorem C55_clock_kept_refuted :
  let ok := says (KReply 8113 []) in let w := in_zone 3600 (pool_world [ok]) in
  w_data w = history [DConfig (wire_config some_config); DStatus (wire_status some_status); DChem (wire_chem some_chem);
           DScg (wire_scg some_scg); DDate (S754_zero false) (wire_time 2024 2 4 29 23 58 41 250 ++ u32le 1)] [] /\
  exists w', async_set_date_time 1 None (Some (VInt 0)) w =
     ([Send 0 8112 (wire_time 2024 3 4 1 0 58 0 250 ++ u32le 0); AwaitReply 0 2000; Got ok], w', Val tt).
Proof. split; [reflexivity|]. eexists; vm_compute; reflexivity. Qed.
Print Assumptions C55_clock_kept_refuted.
(** On a UTC host the clock is kept, for controller times from 1970 to 2105 (beyond, the
    binary64 timestamp no longer resolves microseconds). *)
Theorem C55_clock_kept_utc_partial n c t a w r rest l w1 : ready c w -> 0 <= w_retries w ->
  valid_dt t = true -> 1970 <= dt_year t <= 2105 -> is_u32 a ->
  (forall x, h_tz (w_host w) x = 0) ->
  leads (VDict (w_data w)) [KS "controller"; KS "date_time"; KS "timestamp"] (VFloat (dt_timestamp t)) ->
  w_env w = r :: rest -> interfere r (set_env rest w) = (l, w1) -> answer_of r = Some (8113, []) ->
  async_set_date_time (S n) None (Some (VInt a)) w =
    (Send c 8112 (wire_time (dt_year t) (dt_month t) (day_of_week (dt_year t) (dt_month t) (dt_day t)) (dt_day t)
       (dt_hour t) (dt_minute t) 0 (dt_micro t / 1000) ++ u32le a) :: AwaitReply c 2000 :: Got r :: l, w1, Val tt).
Proof. exact (dst_only_sent n c t a w r rest l w1). Qed.
Print Assumptions C55_clock_kept_utc_partial.
Example C55_nonvacuous :
  let ok := says (KReply 8113 []) in
  get_data false [KS "controller"; KS "date_time"; KS "timestamp"] pool_data = Ok (VFloat (dt_timestamp (mkDT 2024 2 29 23 58 41 250000))) /\
  exists w', async_set_date_time 1 None (Some (VInt 0)) (pool_world [ok]) =
     ([Send 0 8112 (wire_time 2024 2 3 29 23 58 0 250 ++ u32le 0); AwaitReply 0 2000; Got ok], w', Val tt).
Proof. split; [vm_compute; reflexivity|]. eexists; vm_compute; reflexivity. Qed.
