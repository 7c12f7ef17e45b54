(* The MAC on top of each driver: whole histories. *)
From Verif Require Import Words Lib RegionM RadioM MacStateM MacApiM ChipM SX127xM SX126xM DriverM SpecHist SpecModes SpecChip ReadyP AcceptP DriveP Chip7P Chip6P.

Theorem accepted c h r a e0 : in_place c -> arg_ok a -> let l := m_log (run c h (MAC_init c r a e0)) in
  (exists d, modes MODE_RESET l = Some d) /\
  (forall v ty xt pa g, calls127 v l (init127 ty xt pa g) <> None) /\
  (forall ok ty xt pa reg volt txen g, calls126 ok l (init126 ty xt pa reg volt txen g) <> None).
Proof.
  intros IP OK l. destruct (calls_always c h r a e0 IP OK) as [[d M] _]. fold l in M. split; [eauto|]. split; intros.
  - destruct (accepted7 l v (init127 ty xt pa g) d M) as (ops & y & E & _). now rewrite E.
  - destruct (accepted6 l ok (init126 ty xt pa reg volt txen g) d M) as (ops & y & E & _). now rewrite E.
Qed.

Theorem faithful7 c h r a e0 : in_place c -> arg_ok a -> let l := m_log (run c h (MAC_init c r a e0)) in Forall (tunable limit7) l ->
  forall v ty xt pa g, of7 ty -> exists ops y s ev, calls127 v l (init127 ty xt pa g) = Some (ops, y) /\
  chip7_ops ty reset7 ops = (s, ev) /\ Forall2 (asked 64 wait7) (filter on_air l) ev.
Proof.
  intros IP OK l R v ty xt pa g T. destruct (calls_always c h r a e0 IP OK) as [[d M] S]. fold l in M, S.
  destruct (calls7 l v (init127 ty xt pa g) d reset7 T (start7 ty xt pa g) M S R) as (ops & y & s & ev & E & _ & C & F).
  exists ops, y, s, ev. auto.
Qed.

Theorem faithful6 c h r a e0 : in_place c -> arg_ok a -> let l := m_log (run c h (MAC_init c r a e0)) in Forall (tunable limit6) l ->
  forall ok ty xt pa reg volt txen g, exists ops y s ev take, calls126 ok l (init126 ty xt pa reg volt txen g) = Some (ops, y) /\
  chip6_ops reset6 ops = (s, ev) /\ (forall i, (forall n, ok i n = true) -> take i = true) /\ Forall2 (asked 1 wait6) (filter on_air (kept take l)) ev.
Proof.
  intros IP OK l R ok ty xt pa reg volt txen g. destruct (calls_always c h r a e0 IP OK) as [[d M] S]. fold l in M, S.
  destruct (calls6 l ok (init126 ty xt pa reg volt txen g) d reset6 M S R) as (ops & y & s & ev & take & E & _ & C & K & F).
  exists ops, y, s, ev, take. auto.
Qed.
