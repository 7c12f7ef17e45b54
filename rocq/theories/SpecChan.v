(* Channels a frame may be sent on. *)
From Verif Require Import Lib RegionM MacStateM MacUtilM.

(* channel ch is defined, its bit of the mask is clear, and no more than wait
   ticks of off-time remain in its band *)
Definition open_channel (m : mac) (wait ch : Z) : Prop :=
  let s := m_ctx m in
  0 <= ch < numChannels (s_region s) /\
  Z.testbit (nth (Z.to_nat (ch / 8)) (s_chMask s) 0) (ch mod 8) = false /\
  exists f lo hi b, getChannel s ch = Some (f, lo, hi) /\ 0 < f /\
    getBand (s_region s) f = Some b /\ nth (Z.to_nat b) (m_band m) 0 <= wait.

(* the mask has a bit for every channel of the region *)
Definition mask_room (s : session) : Prop := numChannels (s_region s) <= 8 * Z.of_nat (length (s_chMask s)).

(* tx is set to channel ch, at the rate of the range of ch nearest to desired *)
Definition tuned_to (s : session) (ch desired : Z) (tx : mac_tx) : Prop :=
  tx_chIndex tx = ch /\
  exists f lo hi, getChannel s ch = Some (f, lo, hi) /\ tx_freq tx = f /\
    (lo <= hi -> lo <= tx_rate tx <= hi /\ forall x, lo <= x <= hi -> Z.abs (tx_rate tx - desired) <= Z.abs (x - desired)).

(* a channel is open as soon as any *)
Definition soonest (m : mac) (ch : Z) : Prop :=
  exists w, open_channel m w ch /\ forall x y, open_channel m y x -> y < UINT32_MAX -> w <= Z.max y (band_global m).
