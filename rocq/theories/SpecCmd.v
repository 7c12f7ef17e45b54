(* MAC commands as LoRaWAN 1.0.4 section 5 and LoRaWAN 1.1 section 5 define
   them: identifier, payload length, bit fields. *)
From Coq Require Import ZArith List Bool.
From Verif Require Import SpecFrame StreamM FrameM CommandsM.
Import ListNotations.
Open Scope Z_scope.

(* bits hi..lo of v *)
Definition bits (hi lo v : Z) : Z := v / 2 ^ lo mod 2 ^ (hi - lo + 1).

(* payload length of a command sent to the device, by identifier *)
Definition payload_len (v : l2ver) (cid : Z) : option nat :=
  match cid with
  | 2 => Some 2%nat    (* LinkCheckAns *)
  | 3 => Some 4%nat    (* LinkADRReq *)
  | 4 => Some 1%nat    (* DutyCycleReq *)
  | 5 => Some 4%nat    (* RXParamSetupReq *)
  | 6 => Some 0%nat    (* DevStatusReq *)
  | 7 => Some 5%nat    (* NewChannelReq *)
  | 8 => Some 1%nat    (* RXTimingSetupReq *)
  | 9 => Some 1%nat    (* TXParamSetupReq *)
  | 10 => Some 4%nat   (* DlChannelReq *)
  | 13 => Some 5%nat   (* DeviceTimeAns *)
  | 11 => if is_1_1 v then Some 1%nat else None   (* RekeyConf *)
  | 12 => if is_1_1 v then Some 1%nat else None   (* ADRParamSetupReq *)
  | 14 => if is_1_1 v then Some 2%nat else None   (* ForceRejoinReq *)
  | 15 => if is_1_1 v then Some 1%nat else None   (* RejoinParamSetupReq *)
  | _ => None
  end.

(* fields of a complete payload *)
Definition fields (cid : Z) (p : list Z) : down_cmd :=
  let b i := nth i p 0 in
  let freq l := 100 * le_val l in
  match cid with
  | 2 => DLinkCheck (b 0%nat) (b 1%nat)
  | 3 => DLinkADR (bits 7 4 (b 0%nat)) (bits 3 0 (b 0%nat)) (le_val [b 1%nat; b 2%nat])
                  (bits 6 4 (b 3%nat)) (bits 3 0 (b 3%nat))
  | 4 => DDutyCycle (bits 3 0 (b 0%nat))
  | 5 => DRXParamSetup (bits 6 4 (b 0%nat)) (bits 3 0 (b 0%nat)) (freq [b 1%nat; b 2%nat; b 3%nat])
  | 6 => DDevStatus
  | 7 => DNewChannel (b 0%nat) (freq [b 1%nat; b 2%nat; b 3%nat]) (bits 7 4 (b 4%nat)) (bits 3 0 (b 4%nat))
  | 8 => DRXTimingSetup (bits 3 0 (b 0%nat))
  | 9 => DTXParamSetup (bits 5 0 (b 0%nat))
  | 10 => DDLChannel (b 0%nat) (freq [b 1%nat; b 2%nat; b 3%nat])
  | 11 => DRekey (bits 3 0 (b 0%nat))
  | 12 => DADRParamSetup (bits 7 4 (b 0%nat)) (bits 3 0 (b 0%nat))
  | 13 => DDeviceTime (le_val [b 0%nat; b 1%nat; b 2%nat; b 3%nat]) (b 4%nat)
  | 14 => let w := le_val [b 0%nat; b 1%nat] in
          DForceRejoin (bits 13 11 w) (bits 10 8 w) (bits 6 4 w) (bits 3 0 w)
  | _ => DRejoinParamSetup (bits 7 4 (b 0%nat)) (bits 3 0 (b 0%nat))
  end.

(* ForceRejoinReq is the one command whose fields the library reads from the
   wrong bits; here is what it reads *)
Definition force_rejoin_read (w : Z) : down_cmd :=
  DForceRejoin (bits 12 10 w) (bits 9 7 w) (bits 6 4 w) (bits 3 0 w).

Definition fields_read (cid : Z) (p : list Z) : down_cmd :=
  if cid =? 14 then force_rejoin_read (le_val [nth 0 p 0; nth 1 p 0]) else fields cid p.

(* the first command of a field, and what follows it *)
Definition next_cmd (F : Z -> list Z -> down_cmd) (v : l2ver) (l : list Z)
  : option (down_cmd * list Z) :=
  match l with
  | [] => None
  | cid :: l =>
      match payload_len v cid with
      | None => None
      | Some k => if (length l <? k)%nat then None
                  else Some (F cid (firstn k l), skipn k l)
      end
  end.

(* all commands up to the first unknown or truncated one, each with the bytes
   left after it *)
Fixpoint cmds (F : Z -> list Z -> down_cmd) (fuel : nat) (v : l2ver) (l : list Z)
  : list (down_cmd * list Z) :=
  match fuel with
  | O => []
  | S fuel => match next_cmd F v l with
              | None => []
              | Some (d, l) => (d, l) :: cmds F fuel v l
              end
  end.
Definition parse_cmds F (v : l2ver) (l : list Z) : list (down_cmd * list Z) := cmds F (length l) v l.

(* reading commands one after the other, as the MAC does: the commands
   reported, and whether memory outside the field was touched *)
Fixpoint scan (fuel : nat) (v : l2ver) (s : stream) : list down_cmd * bool :=
  match fuel with
  | O => ([], true)
  | S fuel => match getDownCommand v s with
              | (s, None) => ([], st_oob s)
              | (s, Some d) => let (l, o) := scan fuel v s in (d :: l, o)
              end
  end.
