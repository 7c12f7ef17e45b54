(* Field accesses over updates by rewriting: unlike reduction, this keeps the
   terms that the kernel has to compare small. *)
From Verif Require Import Lib FrameM CommandsM RegionM MacStateM MacTac MacUtilM OpsM MacCmdM MacProcM MacApiM.

Ltac m_unf := unfold on_ctx, on_tx, emit, notify, pushSessionUpdate, timerSet, timerAppend, timerClear,
  set_timer, band_set, inputArm, inputDisarm, complete, sm_update in *.

Ltac ms1 :=
  match goal with
  | |- context [?f (?g ?v ?m)] =>
      lazymatch type of m with
      | mac => idtac | session => idtac | mac_tx => idtac
      end;
      let H := fresh "Hms" in
      first [ assert (H : forall a b, f (g a b) = f b) by (intros; reflexivity)
            | assert (H : forall a b, f (g a b) = a) by (intros; reflexivity) ];
      rewrite !H; clear H
  end.
Ltac ms := repeat ms1.
Ltac ms1_in X :=
  match type of X with
  | context [?f (?g ?v ?m)] =>
      lazymatch type of m with
      | mac => idtac | session => idtac | mac_tx => idtac
      end;
      let H := fresh "Hms" in
      first [ assert (H : forall a b, f (g a b) = f b) by (intros; reflexivity)
            | assert (H : forall a b, f (g a b) = a) by (intros; reflexivity) ];
      rewrite !H in X; clear H
  end.
Ltac ms_in X := repeat (ms1_in X).

(* Name the value bound by the outermost let of the left side of H. *)
Lemma let_eq {A B} (a : A) (k : A -> B) r : (let x := a in k x) = r -> exists y, y = a /\ k y = r.
Proof. intros H. exists a. auto. Qed.
Ltac lt H E :=
  match type of H with
  | (let x := ?a in @?k x) = ?r =>
      let y := fresh "m" in
      apply (let_eq a k r) in H; destruct H as (y & E & H); cbv beta in H
  end.

Ltac ltn H y :=
  match type of H with
  | (let x := ?a in @?k x) = ?r =>
      apply (let_eq a k r) in H; let E := fresh "E" y in destruct H as (y & E & H); cbv beta in H
  end.

(* [unfold] would also expand every let. *)
Tactic Notation "open_def" reference(f) := cbv delta [f]; cbv beta.
Tactic Notation "open_def" reference(f) "in" hyp(H) := cbv delta [f] in H; cbv beta in H.
