(** What can be counted on whoever sends what.

    The book holds what everybody can see of a service: how many there are of
    each thing, and which users hold a credential.  It knows nothing of keys,
    numbers, proofs or bytes. *)
From Verif Require Export SpecStrangers SpecCodec.
From Coq Require Import Bool Arith.

Record book : Type := {
  bk_issuers : nat;
  bk_users : list bool;
  bk_issuances : nat;
  bk_entries : nat;
  bk_shown : nat;
}.

Section robust.
  Context {E : Ext}.

  Definition holder (u : SignalUser E) : bool := match us_credential (su_user u) with Some _ => true | None => false end.
  Definition book_of (s : service E) : book := {|
    bk_issuers := List.length (sv_issuers s);
    bk_users := map holder (sv_users s);
    bk_issuances := List.length (sv_issuances s);
    bk_entries := List.length (sv_entries s);
    bk_shown := List.length (sv_shown s) |}.

  (** What an answer changes: only success changes anything. *)
  Definition recorded (b : book) (x : open_event E) (a : answer) : book :=
    match a with
    | Done =>
      match x with
      | Own (OpenIssuer _) =>
        {| bk_issuers := S (bk_issuers b); bk_users := bk_users b; bk_issuances := bk_issuances b; bk_entries := bk_entries b; bk_shown := bk_shown b |}
      | Own (Register _ _ _) =>
        {| bk_issuers := bk_issuers b; bk_users := bk_users b ++ [false]; bk_issuances := bk_issuances b; bk_entries := bk_entries b; bk_shown := bk_shown b |}
      | Own (IssueTo _ _ _ _) =>
        {| bk_issuers := bk_issuers b; bk_users := bk_users b; bk_issuances := S (bk_issuances b); bk_entries := bk_entries b; bk_shown := bk_shown b |}
      | Own (Deliver _ n) | SendIssuance n _ =>
        {| bk_issuers := bk_issuers b; bk_users := put n true (bk_users b); bk_issuances := bk_issuances b; bk_entries := bk_entries b; bk_shown := bk_shown b |}
      | Own (Enter _ _) =>
        {| bk_issuers := bk_issuers b; bk_users := bk_users b; bk_issuances := bk_issuances b; bk_entries := S (bk_entries b); bk_shown := bk_shown b |}
      | Own (Present _ _ _ _) =>
        {| bk_issuers := bk_issuers b; bk_users := bk_users b; bk_issuances := bk_issuances b; bk_entries := bk_entries b; bk_shown := S (bk_shown b) |}
      | _ => b
      end
    | _ => b
    end.

  (** Bytes that begin with a point. *)
  Definition begins_with_point (b : bytes) : Prop := exists P : point E, decompress (firstn 32 b) = Some P.

  (** The answers that there can be.  [if there is no such participant or thing:
      nobody answers]. *)
  Definition among (n count : nat) (P Q : Prop) : Prop := if (n <? count)%nat then P else Q.
  Definition allowed (b : book) (x : open_event E) (a : answer) : Prop :=
    let issuer j P := among j (bk_issuers b) P (a = Nobody) in
    let user n P := among n (List.length (bk_users b)) P (a = Nobody) in
    let issuance k P := among k (bk_issuances b) P (a = Nobody) in
    let entry k P := among k (bk_entries b) P (a = Nobody) in
    let presentation k P := among k (bk_shown b) P (a = Nobody) in
    let shows n := a = if nth n (bk_users b) false then Done else Failed MissingData in
    match x with
    | Own (OpenIssuer _) => a = Done
    | Own (Register j _ number) | Own (IssueTo j number _ _) => issuer j (a = if fits number then Done else unfit number)
    | Own (Deliver k n) => issuance k (user n (a = Done \/ a = Failed CredentialIssuanceError))
    | Own (Enter number _) => a = if fits number then Done else unfit_number number
    | Own (OpenEntry k number) =>
      entry k (if fits number then a = Done \/ a = FailedNumber InvalidPhoneNumber else a = unfit_number number)
    | Own (Present n k _ _) => user n (entry k (shows n))
    | Own (CheckPresentation j k) => issuer j (presentation k (a = Done \/ a = Failed MacVerification))
    | Own (CheckMember j k) => issuer j (presentation k (a = Done \/ a = Failed MacVerification \/ a = Failed VerificationFailure))
    | Own (ReloadIssuer j) => issuer j (a = Done)
    | Own (ReloadUser n) => user n (a = Done)
    | Own (ReloadIssuance k) => issuance k (a = Done)
    | Own (ReloadEntry k) => entry k (a = Done)
    | Own (ReloadPresentation k) => presentation k (a = Done)
    | SendIssuance n m =>
      user n (((List.length m < 32)%nat \/ ((List.length m < 128)%nat /\ begins_with_point m)) /\ a = Crashed \/
              (128 <= List.length m \/ 32 <= List.length m /\ ~ begins_with_point m)%nat /\ (a = Done \/ exists e, a = Failed e))
    | SendEntry n m _ _ =>
      user n (((List.length m < 32)%nat \/ (List.length m <> 64%nat /\ begins_with_point m)) /\ a = Crashed \/
              (List.length m = 64%nat /\ begins_with_point m) /\ shows n \/
              ((32 <= List.length m)%nat /\ ~ begins_with_point m) /\ exists e, a = FailedNumber e)
    | SendPresentation j _ | SendMember j _ => issuer j (a = Done \/ exists e, a = Failed e)
    end.

  (** What makes the program crash: a number, or a message, of the wrong length. *)
  Definition crashing (b : book) (x : open_event E) : Prop :=
    let bad_number number := (28 <= List.length number <= 32)%nat in
    match x with
    | Own (Register j _ number) | Own (IssueTo j number _ _) => (j < bk_issuers b)%nat /\ bad_number number
    | Own (Enter number _) => bad_number number
    | Own (OpenEntry k number) => (k < bk_entries b)%nat /\ bad_number number
    | Own _ => False
    | SendIssuance n m =>
      (n < List.length (bk_users b))%nat /\
      ((List.length m < 32)%nat \/ (List.length m < 128)%nat /\ begins_with_point m)
    | SendEntry n m _ _ =>
      (n < List.length (bk_users b))%nat /\
      ((List.length m < 32)%nat \/ List.length m <> 64%nat /\ begins_with_point m)
    | SendPresentation _ _ | SendMember _ _ => False
    end.

  Definition open_after (params : SystemParameters E) (s : service E) (h : list (open_event E)) : service E :=
    fold_left (fun s x => fst (open_step params s x)) h s.

  (** A credential that is all zeros in bytes, and a user without one. *)
  Definition blank (u : SignalUser E) : Prop :=
    exists c, us_credential (su_user u) = Some c /\
      tag_nonce (cr_mac c) = pzero /\ tag_mac (cr_mac c) = pzero /\ cr_attributes c = [0].
  Definition emptied (u : SignalUser E) : SignalUser E :=
    {| su_phone_number := su_phone_number u;
       su_user := {| us_system_parameters := us_system_parameters (su_user u);
                     us_issuer_parameters := us_issuer_parameters (su_user u);
                     us_key := us_key (su_user u); us_credential := None |} |}.

  (** A message from somebody else. *)
  Definition strange (x : open_event E) : Prop := match x with Own _ => False | _ => True end.
  (** The same user but for the credential. *)
  Definition same_but_credential (u u' : SignalUser E) : Prop :=
    emptied u = emptied u' /\ (holder u = true -> holder u' = true).
End robust.
