(* When the radio is told to listen, if LDL_MAC_process is called in time. *)
From Verif Require Import Words FrameM CommandsM RegionM RadioM MacStateM MacUtilM MacProcM MacApiM SpecTime SpecHist SpecInput SpecWindow SpecRetry.

(* no interrupt is pending, and none would be taken *)
Definition at_rest (m : mac) : Prop := in_state (m_inputs m) = false /\ in_armed (m_inputs m) = false.

(* between m and m' the radio was told neither to transmit nor to listen *)
Definition silent (m m' : mac) : Prop := existsb radio_start (new_out m m') = false.

(* the radio was told to listen for a frame that begins within sym symbols *)
Definition told_to_listen (sym : Z) (l : list out) : Prop := exists f b sf len, In (OReceive f b sf sym len) l.

(* the first call of LDL_MAC_process at or after D, at T: from then on the
   oscillator starts, and listening is due at this time *)
Definition listen_at (c : cfg) (m : mac) (D T : Z) : Z := D + Z.max 0 (ceil_div (c_xtal c * m_tps m) 1000 - lateness D T).
