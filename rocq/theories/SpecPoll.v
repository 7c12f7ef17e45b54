(* What the application is told when it asks whether, and how much, it can
   send. *)
From Verif Require Import Lib FrameM CommandsM RegionM MacStateM MacUtilM MacApiM SpecRegion SpecChan SpecAnswer.

(* options of a request; none given is none wanted *)
Definition wanted (o : option data_opts) : data_opts := match o with Some o => o | None => mkOpts 0 false false end.

(* octets of a message *)
Definition octets_of (d : option bytes) : Z := match d with Some l => Z.of_nat (length l) | None => 0 end.

(* answer to a request to send d with options o, when a channel is open: of
   the octets the data rate of the session takes, address, control, counter and
   port use 8, and at most 15 octets of commands fit before the port *)
Definition verdict (v : l2ver) (txps : bool) (s : session) (d : option bytes) (o : option data_opts) : status :=
  let n := Z.of_nat (length (uplink_commands v txps s (wanted o))) in
  let room := rate_mtu (s_region s) (s_rate s) - 8 in
  if room <? octets_of d then STATUS_SIZE
  else if (n <=? 15) && (octets_of d + n <=? room) then STATUS_OK
  else STATUS_MACPRIORITY.

(* every channel that is defined and not masked takes the rate of the session *)
Definition rate_everywhere (s : session) : Prop := forall ch f lo hi,
  0 <= ch < numChannels (s_region s) -> Z.testbit (nth (Z.to_nat (ch / 8)) (s_chMask s) 0) (ch mod 8) = false ->
  getChannel s ch = Some (f, lo, hi) -> 0 < f -> lo <= s_rate s <= hi.

(* no options, and no answer to TXParamSetupReq waiting *)
Definition plain (txps : bool) (s : session) (o : option data_opts) : Prop :=
  do_check (wanted o) = false /\ do_getTime (wanted o) = false /\ txps && waiting s CMD_TX_PARAM_SETUP = false.
