(** What can be counted on whoever sends what (C103): signal-credential/src/issuer.rs,
    user.rs, phone_number.rs and credential.rs. *)
From Verif Require Import Toy Algebra ProofFacts IssueFacts ShowFacts SignalFacts CodecFacts CompositeFacts CreatedFacts.
From Verif Require Import PropertiesCodec PropertiesHistory PropertiesStrangers SpecRobust.
From Coq Require Import Lia Bool.

Lemma among_true n count (P Q : Prop) : (n < count)%nat -> P -> among n count P Q.
Proof. intros H. unfold among. apply Nat.ltb_lt in H. rewrite H. auto. Qed.
Lemma among_false n count (P Q : Prop) : (count <= n)%nat -> Q -> among n count P Q.
Proof. intros H. unfold among. apply Nat.ltb_ge in H. rewrite H. auto. Qed.
Lemma nth_some {A} (l : list A) n x : nth_error l n = Some x -> (n < List.length l)%nat.
Proof. intros H. apply nth_error_Some. congruence. Qed.
Lemma nth_none {A} (l : list A) n : nth_error l n = None -> (List.length l <= n)%nat.
Proof. apply nth_error_None. Qed.
Lemma forall_nth {A} (P : A -> Prop) l n x : Forall P l -> nth_error l n = Some x -> P x.
Proof. intros H Hn. rewrite Forall_forall in H. apply H. eapply nth_error_In, Hn. Qed.
Lemma forall_put {A} (P : A -> Prop) l n x : Forall P l -> P x -> Forall P (put n x l).
Proof. intros H Hx. revert n; induction H; intros [|n]; cbn; constructor; auto. Qed.
Lemma forall_snoc {A} (P : A -> Prop) l x : Forall P l -> P x -> Forall P (l ++ [x]).
Proof. intros H Hx. apply Forall_app. auto. Qed.
Lemma map_put {A B} (f : A -> B) n x l : map f (put n x l) = put n (f x) (map f l).
Proof. revert n; induction l as [|y l IH]; intros [|n]; cbn; auto. rewrite IH. reflexivity. Qed.
Lemma put_id {A} n (x : A) l : nth_error l n = Some x -> put n x l = l.
Proof. revert n; induction l as [|y l IH]; intros [|n] H; try discriminate; cbn in *; [congruence|]. rewrite IH by exact H. reflexivity. Qed.

Section robust.
  Context {E : Ext} (L : ExtLaws E) (params : SystemParameters E).

  (** ** The invariant *)
  Definition tame (u : SignalUser E) : Prop :=
    (exists X, pk_Xn (us_issuer_parameters (su_user u)) = [X]) /\
    (forall k, us_key (su_user u) = Some k -> canonical (eg_secret k) /\ ~ (eg_secret k = 0 /\ eg_public k = pzero)) /\
    (forall c, us_credential (su_user u) = Some c -> wf_credential c) /\ bits255 (su_phone_number u).
  Record sane (s : service E) : Prop := {
    sane_issuers : Forall (issuer_ok params) (sv_issuers s);
    sane_users : Forall tame (sv_users s);
    sane_issuances : Forall wf_issuance (sv_issuances s);
    sane_entries : Forall (fun e => bits255 (re_opening e)) (sv_entries s);
    sane_shown : Forall (fun x => wf_signal_presentation (sh_presentation x)) (sv_shown s);
  }.
  Lemma sane_start : sane service_start.
  Proof. split; constructor. Qed.

  Lemma blank_dec (u : SignalUser E) : blank u \/ ~ blank u.
  Proof.
    unfold blank. destruct (us_credential (su_user u)) as [c|]; [|right; intros (c & H & _); discriminate].
    destruct (peqb (tag_nonce (cr_mac c)) pzero) eqn:H1.
    2:{ right. intros (c' & [= <-] & H & _). apply (peqb_true L) in H. congruence. }
    destruct (peqb (tag_mac (cr_mac c)) pzero) eqn:H2.
    2:{ right. intros (c' & [= <-] & _ & H & _). apply (peqb_true L) in H. congruence. }
    apply (peqb_true L) in H1, H2.
    destruct (list_eq_dec Z.eq_dec (cr_attributes c) [0]) as [H3|H3]; [left; exists c; auto|].
    right. intros (c' & [= <-] & _ & _ & H). contradiction.
  Qed.

  Lemma emptied_tame u : tame u -> tame (emptied u).
  Proof. intros (H1 & H2 & _ & H4). split; [exact H1|]. split; [exact H2|]. split; [discriminate|exact H4]. Qed.
  Lemma reload_user u : tame u ->
    signal_user_from_bytes (signal_user_to_bytes u) = Ok u /\ ~ blank u \/
    signal_user_from_bytes (signal_user_to_bytes u) = Ok (emptied u) /\ blank u.
  Proof.
    intros Hu. pose proof Hu as (H1 & H2 & H3 & H4). destruct (blank_dec u) as [Hb|Hb]; [right|left]; (split; [|exact Hb]).
    - assert (He : signal_user_to_bytes u = signal_user_to_bytes (emptied u)).
      { destruct Hb as (c & Hc & Hn & Hm & Ha). unfold signal_user_to_bytes. cbn [emptied su_phone_number su_user].
        f_equal. unfold user_to_bytes. cbn [us_system_parameters us_issuer_parameters us_key us_credential]. rewrite Hc.
        do 3 f_equal. unfold credential_to_bytes, tag_to_bytes. rewrite Hn, Hm, Ha, (compress_zero E L).
        vm_compute. reflexivity. }
      rewrite He. apply (C33_signal_user E L). split; [|exact H4].
      split; [exact H1|]. split; [exact H2|]. discriminate.
    - apply (C33_signal_user E L). split; [|exact H4]. split; [exact H1|]. split; [exact H2|].
      intros c Hc. split; [apply H3, Hc|]. intros K. apply Hb. exists c. auto.
  Qed.

  Lemma finish_tame u iss : tame u -> wf_issuance iss -> tame (fst (signal_obtain_finish u (Some iss))).
  Proof.
    intros Hu (Hi & _). unfold signal_obtain_finish. rewrite obtain_finish_result.
    destruct (snd (obtain_finish (su_user u) (Some iss))) as [[]|e|]; cbn [fst]; [|destruct u as [p u]; exact Hu..].
    destruct Hu as (H1 & H2 & H3 & H4). split; [exact H1|]. split; [exact H2|]. split; [|exact H4].
    cbn [su_user us_credential]. intros c [= <-]. exact Hi.
  Qed.
  Lemma finish_cases u iss : tame u ->
    (snd (signal_obtain_finish u (Some iss)) = Ok tt /\ holder (fst (signal_obtain_finish u (Some iss))) = true \/
     snd (signal_obtain_finish u (Some iss)) = Err CredentialIssuanceError /\ fst (signal_obtain_finish u (Some iss)) = u).
  Proof.
    intros ((X & HX) & _). unfold signal_obtain_finish, obtain_finish. rewrite HX. cbn [nth_error].
    match goal with |- context [ir_verify ?a ?b ?c] => pose proof (ir_verify_no_panic a b c);
      destruct (ir_verify a b c) as [[]|e|] end; [left|right|congruence]; (split; [reflexivity|]); [reflexivity|].
    destruct u. reflexivity.
  Qed.
  Lemma show_tame u r os entry : tame u ->
    if holder u then exists p r' os', signal_show u r os entry = Ok (p, r', os') /\ wf_signal_presentation p
    else signal_show u r os entry = Err MissingData.
  Proof.
    intros ((X & HX) & _ & Hc & _). pose proof (C37_signal_show_outcomes E L u r os entry) as H. unfold holder.
    destruct (us_credential (su_user u)) as [c|]; [|exact H]. destruct (Hc c eq_refl) as (m & _ & Hm).
    destruct H as [[[K|K] _]|(_ & _ & [[p r'] os'] & H)]; [congruence|congruence|]. exists p, r', os'. split; [exact H|].
    apply wf_signal_presentation_iff. eapply (created_presentation L); eassumption.
  Qed.
  Lemma verify_cases i p : issuer_ok params i -> wf_signal_presentation p ->
    (signal_verify i p = Ok {| vs_presentation := p |} \/ signal_verify i p = Err MacVerification) /\
    ((exists R, verify_roster_membership i {| vs_presentation := p |} = Ok R) \/
     verify_roster_membership i {| vs_presentation := p |} = Err VerificationFailure).
  Proof.
    intros Hi ((Hr & (C & HC) & _) & _). split.
    - unfold signal_verify, issuer_verify. destruct (issuer_single params i Hi) as (X1 & x1 & HX & Hx & _).
      destruct (verify_statement_cases i (sc_presentation p)) as [(_ & q & ->)|(Hf & _)].
      2:{ exfalso. apply Hf. unfold verify_fits. rewrite HX, Hx, Hr, HC. cbn. repeat split; try discriminate; lia. }
      cbn [bind]. match goal with |- context [vc_verify ?a ?b ?c] => pose proof (vc_verify_no_panic a b c);
        destruct (vc_verify a b c) as [[]|e|] end; cbn [map_err bind]; [left; reflexivity|right; reflexivity|congruence].
    - rewrite (verify_roster_ok i p C []) by exact HC.
      match goal with |- context [ce_verify ?a ?b ?c] => pose proof (ce_verify_no_panic a b c);
        destruct (ce_verify a b c) as [[]|e|] end; [left; eauto|right; reflexivity|congruence].
  Qed.

  (** ** One event *)
  Definition book_step (s : service E) (x : open_event E) : Prop :=
    book_of (fst (open_step params s x)) = recorded (book_of s) x (snd (open_step params s x)) \/
    exists n u, x = Own (ReloadUser n) /\ nth_error (sv_users s) n = Some u /\ blank u /\
      fst (open_step params s x) = with_users s (put n (emptied u) (sv_users s)).
  Definition right_step (s : service E) (x : open_event E) : Prop :=
    sane (fst (open_step params s x)) /\ allowed (book_of s) x (snd (open_step params s x)) /\ book_step s x.

  Ltac nobody := split; [assumption|]; split; [|left; reflexivity].
  Ltac there := cbn [book_of bk_issuers bk_users bk_issuances bk_entries bk_shown]; rewrite ?map_length;
    first [apply among_true; [eapply nth_some; eassumption|]|apply among_false; [apply nth_none; assumption|]].
  Ltac books := left; unfold book_of, recorded, with_issuers, with_users, with_issuances, with_entries, with_shown;
    cbn [sv_issuers sv_users sv_issuances sv_entries sv_shown bk_issuers bk_users bk_issuances bk_entries bk_shown];
    rewrite ?app_length, ?map_app, ?put_length, ?Nat.add_1_r; try reflexivity.
  Ltac keep := constructor; unfold with_issuers, with_users, with_issuances, with_entries, with_shown;
    cbn [sv_issuers sv_users sv_issuances sv_entries sv_shown]; try assumption.

  Lemma number_unfit {A} (number : bytes) (o : outcome CredentialError A) :
    match try_from_bytes number with
    | Ok _ => True | Err e => o = Err (phone_to_credential_error e) | Panic => o = Panic
    end ->
    (exists n, try_from_bytes number = Ok n /\ fits number = true /\ canonical n) \/
    (fits number = false /\ answer_of o = unfit number /\ (forall a, o <> Ok a)).
  Proof.
    intros H. pose proof (number_cases number) as Hn. unfold unfit. destruct (try_from_bytes number) as [n|e|].
    - left. exists n. destruct Hn. auto.
    - right. destruct Hn as (-> & -> & ->). subst o. split; [reflexivity|]. split; [reflexivity|discriminate].
    - right. destruct Hn as (-> & ->). subst o. split; [reflexivity|]. split; [reflexivity|discriminate].
  Qed.

  Lemma open_right s r : sane s -> right_step s (Own (OpenIssuer r)).
  Proof.
    intros [H1 H2 H3 H4 H5]. unfold right_step, book_step. cbn [open_step step allowed fst snd]. split; [|split; [reflexivity|]].
    - keep. apply forall_snoc; [exact H1|]. apply (new_issuer L).
    - books.
  Qed.
  Lemma register_right s j key number : sound_event (Register j key number) -> sane s -> right_step s (Own (Register j key number)).
  Proof.
    intros Hk H. pose proof H as [H1 H2 H3 H4 H5]. unfold right_step, book_step. cbn [open_step step allowed].
    destruct (nth_error (sv_issuers s) j) as [i|] eqn:Hj; cbn [fst snd]; [|nobody; there; reflexivity].
    destruct (number_unfit number (signal_user_new params (get_issuer_parameters i) key number)) as [(n & Hn & Hf & Hc)|(Hf & Ha & Ho)].
    { unfold signal_user_new. destruct (try_from_bytes number); [exact I|reflexivity|reflexivity]. }
    - unfold signal_user_new. rewrite Hn. cbn [map_err bind answer_of]. split; [|split].
      + keep. apply forall_snoc; [exact H2|]. pose proof (forall_nth _ _ _ _ H1 Hj) as Hi.
        destruct (issuer_single params i Hi) as (X1 & x1 & HX & _). split; [exists X1; exact HX|].
        split; [|split; [discriminate|apply canonical_bits, Hc]].
        intros k K. change (key = Some k) in K. subst key. exact Hk.
      + there. rewrite Hf. reflexivity.
      + books.
    - rewrite Ha. assert (Hs : (match signal_user_new params (get_issuer_parameters i) key number with Ok u => with_users s (sv_users s ++ [u]) | _ => s end) = s)
        by (destruct (signal_user_new params (get_issuer_parameters i) key number); [exfalso; eapply Ho; reflexivity|reflexivity|reflexivity]).
      rewrite Hs. split; [exact H|]. split; [there; rewrite Hf; reflexivity|]. left. unfold unfit. destruct (crashes number); reflexivity.
  Qed.
  Lemma issue_right s j number r os : sane s -> right_step s (Own (IssueTo j number r os)).
  Proof.
    intros H. pose proof H as [H1 H2 H3 H4 H5]. unfold right_step, book_step. cbn [open_step step allowed].
    destruct (nth_error (sv_issuers s) j) as [i|] eqn:Hj; cbn [fst snd]; [|nobody; there; reflexivity].
    destruct (number_unfit number (signal_issue i number r os)) as [(n & Hn & Hf & Hc)|(Hf & Ha & Ho)].
    { unfold signal_issue. destruct (try_from_bytes number); [exact I|reflexivity|reflexivity]. }
    - pose proof (forall_nth _ _ _ _ H1 Hj) as Hi.
      destruct (issue_result L params i n r os Hi Hc) as (iss & r' & os' & Hq & _ & Hw & _).
      assert (Hs : signal_issue i number r os = Ok (iss, r', os')) by (unfold signal_issue; rewrite Hn; exact Hq).
      rewrite Hs. cbn [answer_of]. split; [|split].
      + keep. apply forall_snoc; assumption.
      + there. rewrite Hf. reflexivity.
      + books.
    - rewrite Ha. assert (Hs : (match signal_issue i number r os with Ok (iss, _, _) => with_issuances s (sv_issuances s ++ [iss]) | _ => s end) = s)
        by (destruct (signal_issue i number r os); [exfalso; eapply Ho; reflexivity|reflexivity|reflexivity]).
      rewrite Hs. split; [exact H|]. split; [there; rewrite Hf; reflexivity|]. left. unfold unfit. destruct (crashes number); reflexivity.
  Qed.
  Lemma take_right s n u iss : sane s -> nth_error (sv_users s) n = Some u -> wf_issuance iss ->
    let s' := with_users s (put n (fst (signal_obtain_finish u (Some iss))) (sv_users s)) in
    let a := answer_of (snd (signal_obtain_finish u (Some iss))) in
    sane s' /\
    (a = Done /\ book_of s' = {| bk_issuers := bk_issuers (book_of s); bk_users := put n true (bk_users (book_of s));
                                 bk_issuances := bk_issuances (book_of s); bk_entries := bk_entries (book_of s); bk_shown := bk_shown (book_of s) |} \/
     a = Failed CredentialIssuanceError /\ s' = s).
  Proof.
    intros H Hn Hw. pose proof H as [H1 H2 H3 H4 H5]. cbv zeta. pose proof (forall_nth _ _ _ _ H2 Hn) as Hu.
    split; [keep; apply forall_put; [exact H2|apply finish_tame; assumption]|].
    destruct (finish_cases u iss Hu) as [[-> Hh]|[-> ->]]; [left|right]; (split; [reflexivity|]).
    - unfold book_of, with_users. cbn [sv_issuers sv_users sv_issuances sv_entries sv_shown bk_issuers bk_users bk_issuances bk_entries bk_shown].
      rewrite map_put, Hh. reflexivity.
    - unfold with_users. rewrite (put_id n u) by exact Hn. destruct s; reflexivity.
  Qed.
  Lemma deliver_right s k n : sane s -> right_step s (Own (Deliver k n)).
  Proof.
    intros H. pose proof H as [H1 H2 H3 H4 H5]. unfold right_step, book_step. cbn [open_step step allowed].
    destruct (nth_error (sv_issuances s) k) as [iss|] eqn:Hk; cbn [fst snd]; [|nobody; there; reflexivity].
    destruct (nth_error (sv_users s) n) as [u|] eqn:Hn; cbn [fst snd]; [|nobody; there; there; reflexivity].
    destruct (take_right s n u iss H Hn (forall_nth _ _ _ _ H3 Hk)) as (Hs & Ha).
    destruct (signal_obtain_finish u (Some iss)) as [u' o]. cbn [fst snd] in *.
    split; [exact Hs|]. split; [there; there; destruct Ha as [[-> _]|[-> _]]; auto|]. left.
    destruct Ha as [[-> Hb]|[-> ->]]; [exact Hb|reflexivity].
  Qed.
  Lemma send_issuance_right s n m : sane s -> right_step s (SendIssuance n m).
  Proof.
    intros H. unfold right_step, book_step. cbn [open_step step allowed].
    destruct (nth_error (sv_users s) n) as [u|] eqn:Hn; cbn [fst snd]; [|nobody; there; reflexivity].
    pose proof (issuance_panic L m) as Hp. fold (begins_with_point (E := E) m) in Hp.
    assert (Hno : @issuance_from_bytes E m <> Panic -> (128 <= List.length m \/ 32 <= List.length m /\ ~ begins_with_point (E := E) m)%nat).
    { intros K. destruct (Nat.lt_ge_cases (List.length m) 128) as [Hl|Hl]; [right|left; exact Hl].
      destruct (Nat.lt_ge_cases (List.length m) 32) as [Hl'|Hl']; [exfalso; apply K, Hp; left; exact Hl'|].
      split; [exact Hl'|]. intros B. apply K, Hp. right. auto. }
    destruct (issuance_from_bytes m) as [iss|e|] eqn:Hi; cbn [fst snd].
    - assert (Hw : wf_issuance iss) by (apply (C34_trailing_refuted E L m), Hi).
      destruct (take_right s n u iss H Hn Hw) as (Hs & Ha).
      destruct (signal_obtain_finish u (Some iss)) as [u' o]. cbn [fst snd] in *.
      split; [exact Hs|]. split.
      + there. right. split; [apply Hno; discriminate|]. destruct Ha as [[-> _]|[-> _]]; eauto.
      + left. destruct Ha as [[-> Hb]|[-> ->]]; [exact Hb|reflexivity].
    - split; [exact H|]. split; [|left; reflexivity]. there. right. split; [apply Hno; discriminate|]. eauto.
    - split; [exact H|]. split; [|left; reflexivity]. there. left. split; [apply Hp; reflexivity|reflexivity].
  Qed.
  Lemma enter_right s number r : sane s -> right_step s (Own (Enter number r)).
  Proof.
    intros H. pose proof H as [H1 H2 H3 H4 H5]. unfold right_step, book_step. cbn [open_step step allowed fst snd].
    pose proof (number_cases number) as Hn. pose proof (created_entry number params r) as Hc.
    unfold roster_create in *. destruct (ephemeral_new r) as [o r1] eqn:Ho.
    destruct (try_from_bytes number) as [n|e|]; cbn [bind answer_of_number] in *.
    - destruct Hn as [-> Hn]. split; [|split; [reflexivity|books]]. keep. apply forall_snoc; [exact H4|].
      eapply canonical_bits, Hc. reflexivity.
    - destruct Hn as (-> & Hcr & ->). unfold unfit_number. rewrite Hcr. split; [exact H|]. split; [reflexivity|left; reflexivity].
    - destruct Hn as (-> & Hcr). unfold unfit_number. rewrite Hcr. split; [exact H|]. split; [reflexivity|left; reflexivity].
  Qed.

  Lemma open_entry_right s k number : sane s -> right_step s (Own (OpenEntry k number)).
  Proof.
    intros H. unfold right_step, book_step. cbn [open_step step allowed].
    destruct (nth_error (sv_entries s) k) as [entry|] eqn:Hk; cbn [fst snd]; [|nobody; there; reflexivity].
    split; [exact H|]. split.
    - there. pose proof (number_cases number) as Hn. unfold roster_open, unfit_number.
      destruct (try_from_bytes number) as [n|e|]; cbn [bind].
      + destruct Hn as [-> _]. unfold committed_open, commitment_open. destruct (@peqb E _ _); cbn; auto.
      + destruct Hn as (-> & -> & ->). reflexivity.
      + destruct Hn as (-> & ->). reflexivity.
    - left. destruct (answer_of_number (roster_open entry number params)); reflexivity.
  Qed.
  Lemma holder_nth (l : list (SignalUser E)) n u : nth_error l n = Some u -> nth n (map holder l) false = holder u.
  Proof. revert n; induction l as [|v l IH]; intros [|n] H; try discriminate; cbn in *; [congruence|auto]. Qed.
  Lemma present_right s n k r os : sane s -> right_step s (Own (Present n k r os)).
  Proof.
    intros H. pose proof H as [H1 H2 H3 H4 H5]. unfold right_step, book_step. cbn [open_step step allowed].
    destruct (nth_error (sv_users s) n) as [u|] eqn:Hn; cbn [fst snd]; [|nobody; there; reflexivity].
    destruct (nth_error (sv_entries s) k) as [entry|] eqn:Hk; cbn [fst snd]; [|nobody; there; there; reflexivity].
    pose proof (show_tame u r os entry (forall_nth _ _ _ _ H2 Hn)) as Hs. unfold holder in Hs.
    destruct (us_credential (su_user u)) as [c|] eqn:Hc.
    - destruct Hs as (p & r' & os' & Hs & Hw). rewrite Hs. cbn [answer_of]. split; [|split].
      + keep. apply forall_snoc; [exact H5|exact Hw].
      + there. there. rewrite (holder_nth _ _ _ Hn). unfold holder. rewrite Hc. reflexivity.
      + books.
    - rewrite Hs. cbn [answer_of]. split; [exact H|]. split; [|left; reflexivity].
      there. there. rewrite (holder_nth _ _ _ Hn). unfold holder. rewrite Hc. reflexivity.
  Qed.
  Lemma send_entry_right s n m r os : sane s -> right_step s (SendEntry n m r os).
  Proof.
    intros H. pose proof H as [H1 H2 H3 H4 H5]. unfold right_step, book_step. cbn [open_step step allowed].
    destruct (nth_error (sv_users s) n) as [u|] eqn:Hn; cbn [fst snd]; [|nobody; there; reflexivity].
    pose proof (roster_panic L m) as Hp. fold (begins_with_point (E := E) m) in Hp.
    destruct (roster_from_bytes m) as [entry|e|] eqn:Hm; cbn [fst snd].
    - split; [exact H|]. split; [|left; destruct (answer_of (signal_show u r os entry)); reflexivity].
      there. right. left. split.
      + apply (roster_iff L) in Hm as (o & Ho & -> & _). split; [rewrite app_length, (compress_length E L), Ho; reflexivity|].
        exists (re_commitment entry). rewrite firstn_exact by apply (compress_length E L). apply (decompress_compress E L).
      + rewrite (holder_nth _ _ _ Hn). pose proof (show_tame u r os entry (forall_nth _ _ _ _ H2 Hn)) as Hs.
        destruct (holder u); [destruct Hs as (p & r' & os' & -> & _)|rewrite Hs]; reflexivity.
    - split; [exact H|]. split; [|left; reflexivity]. there. right. right. split; [|eauto].
      destruct (Nat.lt_ge_cases (List.length m) 32) as [Hl|Hl]; [exfalso; discriminate (proj2 Hp (or_introl Hl))|].
      split; [exact Hl|]. intros [P HP]. destruct (Nat.eq_dec (List.length m) 64) as [H64|H64].
      + apply (decompress_iff L) in HP. assert (Hok : roster_from_bytes m = Ok {| re_commitment := P; re_opening := le_decode (skipn 32 m) mod 2 ^ 255 |}).
        { apply (roster_iff L). exists (skipn 32 m). cbn [re_commitment re_opening].
          split; [rewrite skipn_length; lia|]. split; [|reflexivity]. rewrite <- HP. symmetry. apply firstn_skipn. }
        rewrite Hm in Hok. discriminate.
      + discriminate (proj2 Hp (or_intror (conj H64 (ex_intro _ P HP)))).
    - split; [exact H|]. split; [|left; reflexivity]. there. left. split; [apply Hp; reflexivity|reflexivity].
  Qed.
  Lemma check_right s j k : sane s -> right_step s (Own (CheckPresentation j k)).
  Proof.
    intros H. pose proof H as [H1 H2 H3 H4 H5]. unfold right_step, book_step. cbn [open_step step allowed].
    destruct (nth_error (sv_issuers s) j) as [i|] eqn:Hj; cbn [fst snd]; [|nobody; there; reflexivity].
    destruct (nth_error (sv_shown s) k) as [x|] eqn:Hk; cbn [fst snd]; [|nobody; there; there; reflexivity].
    destruct (verify_cases i (sh_presentation x) (forall_nth _ _ _ _ H1 Hj) (forall_nth _ _ _ _ H5 Hk)) as [Hv _].
    split; [exact H|]. split; [there; there|left]; destruct Hv as [-> | ->]; cbn; auto.
  Qed.
  Lemma member_right s j k : sane s -> right_step s (Own (CheckMember j k)).
  Proof.
    intros H. pose proof H as [H1 H2 H3 H4 H5]. unfold right_step, book_step. cbn [open_step step allowed].
    destruct (nth_error (sv_issuers s) j) as [i|] eqn:Hj; cbn [fst snd]; [|nobody; there; reflexivity].
    destruct (nth_error (sv_shown s) k) as [x|] eqn:Hk; cbn [fst snd]; [|nobody; there; there; reflexivity].
    destruct (verify_cases i (sh_presentation x) (forall_nth _ _ _ _ H1 Hj) (forall_nth _ _ _ _ H5 Hk)) as [Hv Hr].
    split; [exact H|]. split; [there; there|left]; destruct Hv as [-> | ->]; cbn [bind]; auto;
      destruct Hr as [[R ->] | ->]; cbn; auto.
  Qed.
  Lemma send_presentation_right s j m : sane s -> right_step s (SendPresentation j m) /\ right_step s (SendMember j m).
  Proof.
    intros H. pose proof H as [H1 H2 H3 H4 H5]. unfold right_step, book_step. cbn [open_step step allowed].
    destruct (nth_error (sv_issuers s) j) as [i|] eqn:Hj; cbn [fst snd]; [|split; nobody; there; reflexivity].
    pose proof (C35_never_panic E L m) as Hp. destruct Hp as (_ & _ & _ & _ & _ & _ & _ & _ & Hp & _).
    destruct (signal_presentation_from_bytes m) as [p|e|] eqn:Hm; cbn [bind answer_of]; [| |congruence].
    - assert (Hw : wf_signal_presentation p) by (apply (C34_trailing_refuted E L m), Hm).
      destruct (verify_cases i p (forall_nth _ _ _ _ H1 Hj) Hw) as [Hv Hr]. split.
      + split; [exact H|]. split; [there|left]; destruct Hv as [-> | ->]; cbn; eauto.
      + split; [exact H|]. split; [there|left]; destruct Hv as [-> | ->]; cbn [bind answer_of]; eauto;
          destruct Hr as [[R ->] | ->]; cbn; eauto.
    - split; (split; [exact H|]; split; [there; eauto|left; reflexivity]).
  Qed.
  Lemma reload_right s e : sane s ->
    match e with ReloadIssuer _ | ReloadUser _ | ReloadIssuance _ | ReloadEntry _ | ReloadPresentation _ => right_step s (Own e) | _ => True end.
  Proof.
    intros H. pose proof H as [H1 H2 H3 H4 H5]. unfold right_step, book_step.
    destruct e as [| | | | | | | | |j|n|k|k|k]; try exact I; cbn [open_step step allowed].
    - destruct (nth_error (sv_issuers s) j) as [i|] eqn:Hj; cbn [fst snd]; [|nobody; there; reflexivity].
      pose proof (forall_nth _ _ _ _ H1 Hj) as (_ & _ & _ & Hw). apply (C33_issuer E L) in Hw.
      change (@signal_issuer_from_bytes E (signal_issuer_to_bytes i)) with (@issuer_from_bytes E (issuer_to_bytes i)). rewrite Hw.
      rewrite (put_id j i) by exact Hj. cbn [answer_of]. split; [destruct s; exact H|]. split; [there; reflexivity|left; destruct s; reflexivity].
    - destruct (nth_error (sv_users s) n) as [u|] eqn:Hn; cbn [fst snd]; [|nobody; there; reflexivity].
      pose proof (forall_nth _ _ _ _ H2 Hn) as Hu. destruct (reload_user u Hu) as [[-> Hb]|[-> Hb]]; cbn [answer_of].
      + rewrite (put_id n u) by exact Hn. split; [destruct s; exact H|]. split; [there; reflexivity|left; destruct s; reflexivity].
      + split; [keep; apply forall_put; [exact H2|apply emptied_tame, Hu]|]. split; [there; reflexivity|].
        right. exists n, u. auto.
    - destruct (nth_error (sv_issuances s) k) as [i|] eqn:Hk; cbn [fst snd]; [|nobody; there; reflexivity].
      pose proof (forall_nth _ _ _ _ H3 Hk) as Hw. apply (C33_issuance E L) in Hw. rewrite Hw.
      rewrite (put_id k i) by exact Hk. cbn [answer_of]. split; [destruct s; exact H|]. split; [there; reflexivity|left; destruct s; reflexivity].
    - destruct (nth_error (sv_entries s) k) as [i|] eqn:Hk; cbn [fst snd]; [|nobody; there; reflexivity].
      pose proof (forall_nth _ _ _ _ H4 Hk) as Hw. apply (C33_roster E L) in Hw. rewrite Hw.
      rewrite (put_id k i) by exact Hk. cbn [answer_of_number]. split; [destruct s; exact H|]. split; [there; reflexivity|left; destruct s; reflexivity].
    - destruct (nth_error (sv_shown s) k) as [i|] eqn:Hk; cbn [fst snd]; [|nobody; there; reflexivity].
      pose proof (forall_nth _ _ _ _ H5 Hk) as Hw. apply (C33_signal_presentation E L) in Hw. rewrite Hw.
      rewrite (put_id k) by (rewrite Hk; destruct i; reflexivity). cbn [answer_of]. split; [destruct s; exact H|]. split; [there; reflexivity|left; destruct s; reflexivity].
  Qed.
  Lemma any_right s x : sound_open x -> sane s -> right_step s x.
  Proof.
    intros Hx H. destruct x as [e|n m|n m r os|j m|j m].
    - pose proof (reload_right s e H) as Hr. destruct e as [r|j key number|j number r os|k n|number r|k number|n k r os|j k|j k|j|n|k|k|k]; try exact Hr.
      + apply open_right, H.
      + apply register_right; assumption.
      + apply issue_right, H.
      + apply deliver_right, H.
      + apply enter_right, H.
      + apply open_entry_right, H.
      + apply present_right, H.
      + apply check_right, H.
      + apply member_right, H.
    - apply send_issuance_right, H.
    - apply send_entry_right, H.
    - apply send_presentation_right, H.
    - apply send_presentation_right, H.
  Qed.
  Lemma after_sane h : forall s, Forall sound_open h -> sane s -> sane (open_after params s h).
  Proof.
    induction h as [|x h IH]; intros s Hs H; [exact H|]. apply Forall_cons_iff in Hs as [Hx Hs]. cbn [open_after fold_left].
    apply IH; [exact Hs|]. apply (any_right s x Hx H).
  Qed.

  (** ** What crashes *)
  Lemma among_inv n count (P Q : Prop) : among n count P Q -> (n < count)%nat /\ P \/ (count <= n)%nat /\ Q.
  Proof. unfold among. destruct (Nat.ltb_spec n count); auto. Qed.
  Lemma fits_length number : fits number = true <-> (List.length number <= 27)%nat.
  Proof. apply Nat.leb_le. Qed.
  Lemma number_crashed number a : a = (if fits number then Done else unfit number) ->
    (a = Crashed <-> (28 <= List.length number <= 32)%nat).
  Proof.
    intros ->. unfold unfit, crashes, fits.
    destruct (Nat.leb_spec (List.length number) 27), (Nat.leb_spec 28 (List.length number)), (Nat.leb_spec (List.length number) 32); cbn;
      split; intros; try discriminate; try reflexivity; lia.
  Qed.
  Lemma number_crashed' number a : a = (if fits number then Done else unfit_number number) ->
    (a = Crashed <-> (28 <= List.length number <= 32)%nat).
  Proof.
    intros ->. unfold unfit_number, crashes, fits.
    destruct (Nat.leb_spec (List.length number) 27), (Nat.leb_spec 28 (List.length number)), (Nat.leb_spec (List.length number) 32); cbn;
      split; intros; try discriminate; try reflexivity; lia.
  Qed.
  Lemma allowed_crashed b (x : open_event E) a : allowed b x a -> (a = Crashed <-> crashing b x).
  Proof.
    unfold allowed, crashing.
    destruct x as [[r|j key number|j number r os|k n|number r|k number|n k r os|j k|j k|j|n|k|k|k]|n m|n m r os|j m|j m]; cbv beta iota zeta; intros H;
      repeat match type of H with among _ _ _ _ => apply among_inv in H as [[? H]|[? H]] end;
      try (subst a; split; [discriminate|intuition lia]).
    - apply number_crashed in H. tauto.
    - apply number_crashed in H. tauto.
    - destruct H as [-> | ->]; split; try discriminate; contradiction.
    - apply number_crashed' in H. tauto.
    - destruct (fits number) eqn:Hf.
      + apply fits_length in Hf. destruct H as [-> | ->]; split; try discriminate; lia.
      + assert (H' : a = (if fits number then Done else unfit_number number)) by (rewrite Hf; exact H).
        apply number_crashed' in H'. tauto.
    - destruct (nth n (bk_users b) false); subst a; split; try discriminate; contradiction.
    - destruct H as [-> | ->]; split; try discriminate; contradiction.
    - destruct H as [->|[-> | ->]]; split; try discriminate; contradiction.
    - destruct H as [[H ->]|[H Ha]]; [tauto|]. split.
      + destruct Ha as [->|[e ->]]; discriminate.
      + intros [_ [K|[K B]]]; destruct H as [H|[H B']]; try lia. contradiction.
    - destruct H as [[H ->]|[[[H B] Ha]|[[H B] [e ->]]]]; [tauto| |].
      + destruct (nth n (bk_users b) false); subst a; (split; [discriminate|]); intros [_ [K|[K _]]]; lia.
      + split; [discriminate|]. intros [_ [K|[_ K]]]; [lia|contradiction].
    - destruct H as [->|[e ->]]; split; try discriminate; contradiction.
    - destruct H as [->|[e ->]]; split; try discriminate; contradiction.
  Qed.

  (** ** What strangers change *)
  Lemma same_refl (u : SignalUser E) : same_but_credential u u.
  Proof. split; auto. Qed.
  Lemma same_trans (u v w : SignalUser E) : same_but_credential u v -> same_but_credential v w -> same_but_credential u w.
  Proof. intros [H1 H2] [H3 H4]. split; [congruence|auto]. Qed.
  Lemma finish_same_but (u : SignalUser E) oi : same_but_credential u (fst (signal_obtain_finish u oi)).
  Proof.
    unfold signal_obtain_finish. rewrite obtain_finish_result.
    destruct (snd (obtain_finish (su_user u) oi)) as [[]|e|]; [destruct oi as [iss|]| |]; cbn [fst];
      (split; [reflexivity|try (intros H; exact H)]); reflexivity.
  Qed.
  Lemma same_all (l : list (SignalUser E)) : Forall2 same_but_credential l l.
  Proof. induction l; constructor; auto using same_refl. Qed.
  Lemma same_put l n (u u' : SignalUser E) : nth_error l n = Some u -> same_but_credential u u' ->
    Forall2 same_but_credential l (put n u' l).
  Proof.
    revert n; induction l as [|v l IH]; intros [|n] H Hu; try discriminate; cbn in *; constructor; auto using same_refl, same_all.
    congruence.
  Qed.
  Definition same_but_credentials (s s' : service E) : Prop :=
    sv_issuers s' = sv_issuers s /\ sv_issuances s' = sv_issuances s /\ sv_entries s' = sv_entries s /\ sv_shown s' = sv_shown s /\
    Forall2 same_but_credential (sv_users s) (sv_users s').
  Lemma strange_step s x : strange x -> same_but_credentials s (fst (open_step params s x)).
  Proof.
    assert (H0 : same_but_credentials s s) by (repeat split; apply same_all).
    destruct x as [e|n m|n m r os|j m|j m]; intros Hx; [contradiction|..]; cbn [open_step].
    - destruct (nth_error (sv_users s) n) as [u|] eqn:Hn; [|exact H0].
      destruct (issuance_from_bytes m) as [iss|e|]; [|exact H0|exact H0].
      pose proof (finish_same_but u (Some iss)) as Hf. destruct (signal_obtain_finish u (Some iss)) as [u' o].
      repeat split. eapply same_put; eassumption.
    - destruct (nth_error (sv_users s) n); [|exact H0]. destruct (roster_from_bytes m); exact H0.
    - destruct (nth_error (sv_issuers s) j); exact H0.
    - destruct (nth_error (sv_issuers s) j); exact H0.
  Qed.
  Lemma same_users_trans (l1 l2 l3 : list (SignalUser E)) :
    Forall2 same_but_credential l1 l2 -> Forall2 same_but_credential l2 l3 -> Forall2 same_but_credential l1 l3.
  Proof.
    intros H; revert l3; induction H; intros l3 H3; inversion H3; subst; constructor; eauto using same_trans.
  Qed.
  Lemma strange_after m : forall s, Forall strange m -> same_but_credentials s (open_after params s m).
  Proof.
    induction m as [|x m IH]; intros s Hm; [repeat split; apply same_all|]. apply Forall_cons_iff in Hm as [Hx Hm].
    cbn [open_after fold_left]. destruct (strange_step s x Hx) as (A1 & A2 & A3 & A4 & A5).
    destruct (IH (fst (open_step params s x)) Hm) as (B1 & B2 & B3 & B4 & B5). unfold open_after in *.
    split; [congruence|]. split; [congruence|]. split; [congruence|]. split; [congruence|]. eapply same_users_trans; eassumption.
  Qed.
  Lemma strange_sound (m : list (open_event E)) : Forall strange m -> Forall sound_open m.
  Proof. apply Forall_impl. intros [e|n b|n b r os|j b|j b] H; try exact I. contradiction. Qed.
  Lemma finish_answer (u u' : SignalUser E) oi : same_but_credential u u' ->
    snd (signal_obtain_finish u' oi) = snd (signal_obtain_finish u oi).
  Proof.
    intros [H _]. unfold emptied in H. injection H as H1 H2 H3 H4.
    unfold signal_obtain_finish, obtain_finish. rewrite H2, H3. destruct oi as [iss|]; [|reflexivity].
    destruct (nth_error (pk_Xn (us_issuer_parameters (su_user u'))) 0); [|reflexivity].
    destruct (ir_verify _ _ _) as [[]|e|]; reflexivity.
  Qed.
  Lemma own_answer s s' e : sane s -> sane s' -> same_but_credentials s s' -> sound_event e ->
    match e with
    | Present _ _ _ _ => snd (step params s e) = Done -> snd (step params s' e) = Done
    | _ => snd (step params s' e) = snd (step params s e)
    end.
  Proof.
    intros Hs Hs' (H1 & H2 & H3 & H4 & H5) He.
    assert (Hnth : forall n, match nth_error (sv_users s) n, nth_error (sv_users s') n with
      | Some u, Some u' => same_but_credential u u' | None, None => True | _, _ => False end).
    { intros n. apply (forall2_nth _ _ _ n H5). }
    destruct e as [r|j key number|j number r os|k n|number r|k number|n k r os|j k|j k|j|n|k|k|k]; cbn [step];
      rewrite ?H1, ?H2, ?H3, ?H4; try reflexivity;
      try (match goal with |- context [nth_error (sv_issuers s) ?j] => destruct (nth_error (sv_issuers s) j) end; reflexivity);
      try (match goal with |- context [nth_error (sv_entries s) ?j] => destruct (nth_error (sv_entries s) j) end; reflexivity);
      try (destruct (nth_error (sv_issuers s) j), (nth_error (sv_shown s) k); reflexivity);
      try (destruct (nth_error (sv_issuances s) k); reflexivity); try (destruct (nth_error (sv_shown s) k); reflexivity).
    - destruct (nth_error (sv_issuances s) k) as [iss|]; [|reflexivity]. specialize (Hnth n).
      destruct (nth_error (sv_users s) n) as [u|], (nth_error (sv_users s') n) as [u'|]; try contradiction; [|reflexivity].
      pose proof (finish_answer u u' (Some iss) Hnth) as Hf.
      destruct (signal_obtain_finish u' (Some iss)), (signal_obtain_finish u (Some iss)). cbn [snd] in *. rewrite Hf. reflexivity.
    - pose proof (Hnth n) as Hn. destruct (nth_error (sv_users s) n) as [u|] eqn:Hu; [|discriminate].
      destruct (nth_error (sv_users s') n) as [u'|] eqn:Hu'; [|contradiction].
      destruct (nth_error (sv_entries s) k) as [entry|]; [|discriminate]. cbn [snd]. intros Hd.
      pose proof (show_tame u r os entry (forall_nth _ _ _ _ (sane_users _ Hs) Hu)) as H.
      pose proof (show_tame u' r os entry (forall_nth _ _ _ _ (sane_users _ Hs') Hu')) as H'.
      destruct Hn as [_ Hn]. destruct (holder u); [|rewrite H in Hd; discriminate]. rewrite (Hn eq_refl) in H'.
      destruct H' as (p & r' & os' & -> & _). reflexivity.
    - destruct (any_right s (Own (ReloadUser n)) I Hs) as (_ & Ha & _). destruct (any_right s' (Own (ReloadUser n)) I Hs') as (_ & Ha' & _).
      cbn [open_step step] in *. cbn [allowed book_of bk_users] in Ha, Ha'. rewrite map_length in Ha, Ha'.
      assert (Hl : List.length (sv_users s') = List.length (sv_users s)) by (symmetry; eapply forall2_length, H5).
      rewrite Hl in Ha'. unfold among in *. destruct (n <? List.length (sv_users s))%nat; congruence.
  Qed.
End robust.

(** ** C103: whoever sends what *)
(** After any history, with any messages from anybody in it, every event has one
    of the answers that the book allows. *)
Theorem C103_answers : forall E, ExtLaws E -> forall (params : SystemParameters E) h x,
  Forall sound_open h -> sound_open x ->
  let s := open_after params service_start h in
  allowed (book_of s) x (snd (open_step params s x)).
Proof.
  intros E L params h x Hh Hx s. apply (any_right L params s x Hx). apply (after_sane L); [exact Hh|apply sane_start].
Qed.
Print Assumptions C103_answers.
(** The book is kept by the answers alone, but where a user is reloaded whose
    credential is all zeros in bytes: it is gone then. *)
Theorem C103_book : forall E, ExtLaws E -> forall (params : SystemParameters E) h x,
  Forall sound_open h -> sound_open x ->
  let s := open_after params service_start h in
  book_of (fst (open_step params s x)) = recorded (book_of s) x (snd (open_step params s x)) \/
  exists n u, x = Own (ReloadUser n) /\ nth_error (sv_users s) n = Some u /\ blank u /\
    fst (open_step params s x) = with_users s (put n (emptied u) (sv_users s)).
Proof.
  intros E L params h x Hh Hx s. apply (any_right L params s x Hx). apply (after_sane L); [exact Hh|apply sane_start].
Qed.
Print Assumptions C103_book.
(** Whether the program crashes is seen from the event, whatever was before. *)
Theorem C103_crash : forall E, ExtLaws E -> forall (params : SystemParameters E) h x,
  Forall sound_open h -> sound_open x ->
  let s := open_after params service_start h in
  snd (open_step params s x) = Crashed <-> crashing (book_of s) x.
Proof. intros E L params h x Hh Hx s. apply allowed_crashed. apply (C103_answers E L); assumption. Qed.
Print Assumptions C103_crash.
(** Messages from strangers change no more than the credentials of users, take
    none from anybody, and change no answer to what comes next but that a user
    may show a credential who had none. *)
Theorem C103_strangers : forall E, ExtLaws E -> forall (params : SystemParameters E) h m e,
  Forall sound_open h -> Forall strange m -> sound_event e ->
  let s := open_after params service_start h in
  let s' := open_after params service_start (h ++ m) in
  (sv_issuers s' = sv_issuers s /\ sv_issuances s' = sv_issuances s /\ sv_entries s' = sv_entries s /\ sv_shown s' = sv_shown s /\
   Forall2 same_but_credential (sv_users s) (sv_users s')) /\
  match e with
  | Present _ _ _ _ => snd (step params s e) = Done -> snd (step params s' e) = Done
  | _ => snd (step params s' e) = snd (step params s e)
  end.
Proof.
  intros E L params h m e Hh Hm He s s'.
  assert (Hs' : s' = open_after params s m) by (unfold s', s, open_after; apply fold_left_app).
  assert (Hs : sane params s) by (apply (after_sane L); [exact Hh|apply sane_start]).
  pose proof (strange_after params m s Hm) as Hsame. rewrite Hs'.
  split; [exact Hsame|]. apply (own_answer L); try assumption. apply (after_sane L); [apply strange_sound, Hm|exact Hs].
Qed.
Print Assumptions C103_strangers.
(** A user who holds a credential after a reload need not hold it: whoever has
    the issuer's secret key can send one that is accepted, can be shown, and is
    gone after the next reload. *)
Theorem C103_reload_refuted : forall E, ExtLaws E -> forall (params : SystemParameters E) s n u x1 k entry r os,
  nth_error (sv_users s) n = Some u -> wf_user (su_user u) -> bits255 (su_phone_number u) ->
  pk_Xn (us_issuer_parameters (su_user u)) = [smul x1 (sp_h (us_system_parameters (su_user u)))] ->
  nth_error (sv_entries s) k = Some entry ->
  exists b,
    let s1 := fst (open_step params s (SendIssuance n b)) in
    let s2 := fst (open_step params s1 (Own (ReloadUser n))) in
    snd (open_step params s (SendIssuance n b)) = Done /\
    snd (open_step params s1 (Own (Present n k r os))) = Done /\
    snd (open_step params s1 (Own (ReloadUser n))) = Done /\
    snd (open_step params s2 (Own (Present n k r os))) = Failed MissingData.
Proof.
  intros E L params s n u x1 k entry r os Hn (Hx & Hk & _) Hp HX He.
  set (c := {| cr_mac := {| tag_nonce := pzero; tag_mac := pzero |}; cr_attributes := [0] |} : Credential E).
  set (iss0 := {| is_secret_key_commitment := pzero; is_credential := c;
                  is_proof := {| ir_challenge := 0; ir_responses := {| irs_x0 := 0; irs_x1 := 0; irs_x0_tilde := 0; irs_m1x1 := 0 |} |} |}).
  set (q := issuance_publics (us_system_parameters (su_user u)) (smul x1 (sp_h (us_system_parameters (su_user u)))) iss0).
  set (w := {| irs_x0 := 0; irs_x1 := x1; irs_x0_tilde := 0; irs_m1x1 := 0 |}).
  set (iss := {| is_secret_key_commitment := pzero; is_credential := c;
                 is_proof := ir_create_with (ir_create_absorb issuance_transcript q) q w w |}).
  assert (Hw : wf_issuance iss).
  { apply wf_issuance_iff. split; [split; [reflexivity|]|apply (ir_create_wf L)]. constructor; [|constructor].
    unfold canonical. pose proof ell_pos. lia. }
  assert (Hd : issuance_from_bytes (issuance_to_bytes iss) = Ok iss) by (apply (C33_issuance E L), Hw).
  assert (Ha : snd (obtain_finish (su_user u) (Some iss)) = Ok tt).
  { apply obtain_finish_ok. eexists _, []. split; [exact HX|].
    change (issuance_publics (us_system_parameters (su_user u)) (smul x1 (sp_h (us_system_parameters (su_user u)))) iss) with q.
    apply (ir_complete L). unfold ir_relation, q, w. cbn [issuance_publics irp_P irp_Q irp_Cx0 irp_B irp_A irp_X1 irs_x0 irs_x1 irs_x0_tilde irs_m1x1].
    cbn [is_secret_key_commitment is_credential iss0 c cr_mac tag_nonce tag_mac]. split; [|split; [|reflexivity]];
      generalize (sp_g (us_system_parameters (su_user u))) (sp_h (us_system_parameters (su_user u))); intros g h; clear - L; pring L. }
  exists (issuance_to_bytes iss).
  set (u1 := {| su_phone_number := su_phone_number u;
                su_user := {| us_system_parameters := us_system_parameters (su_user u); us_issuer_parameters := us_issuer_parameters (su_user u);
                              us_key := us_key (su_user u); us_credential := Some c |} |}).
  assert (Hs1 : open_step params s (SendIssuance n (issuance_to_bytes iss)) = (with_users s (put n u1 (sv_users s)), Done)).
  { cbn [open_step]. rewrite Hn, Hd. unfold signal_obtain_finish. rewrite (obtain_finish_accept _ _ Ha). reflexivity. }
  rewrite Hs1. cbn [fst snd].
  assert (Hu1 : nth_error (put n u1 (sv_users s)) n = Some u1) by (eapply put_at, Hn).
  assert (Ht : tame u1).
  { split; [exact Hx|]. split; [exact Hk|]. split; [|exact Hp]. cbn [u1 su_user us_credential]. intros c' [= <-]. apply Hw. }
  assert (Hb : blank u1) by (exists c; auto).
  assert (Hr : signal_user_from_bytes (signal_user_to_bytes u1) = Ok (emptied u1)).
  { destruct (reload_user L u1 Ht) as [[_ K]|[K _]]; [contradiction|exact K]. }
  cbn [open_step step with_users sv_users sv_entries]. rewrite Hu1, Hr, He. cbn [fst snd with_users sv_users sv_entries answer_of].
  split; [reflexivity|]. split; [|split; [reflexivity|]].
  - pose proof (show_tame L u1 r os entry Ht) as H. change (holder u1) with true in H. cbn iota in H.
    destruct H as (p & r' & os' & -> & _). reflexivity.
  - rewrite (put_at _ _ u1) by exact Hu1. rewrite He. cbn [snd].
    pose proof (show_tame L (emptied u1) r os entry (emptied_tame u1 Ht)) as H. change (holder (emptied u1)) with false in H. cbn iota in H.
    rewrite H. reflexivity.
Qed.
Print Assumptions C103_reload_refuted.

(** A history in which strangers send what crashes the program, what is refused
    and what is short; everything goes on as before. *)
Definition sample_siege : list (open_event toy) :=
  [Own (OpenIssuer (toy_stream 1)); Own (Register 0 None (str "14155551234"));
   SendIssuance 0 []; SendIssuance 0 (zeros 127); SendEntry 0 (zeros 64) (toy_stream 2) (toy_stream 3); SendEntry 0 (zeros 65) (toy_stream 2) (toy_stream 3);
   SendPresentation 0 []; SendMember 1 (zeros 300); Own (Enter (str "1415555123414155551234141555") (toy_stream 4));
   Own (Enter (str "14155551234") (toy_stream 5)); Own (ReloadUser 0); Own (ReloadEntry 0)].
Example C103_met : Forall sound_open sample_siege /\
  open_answers sample_params service_start sample_siege =
    [Done; Done; Crashed; Crashed; Failed MissingData; Crashed; Failed MissingData; Nobody; Crashed; Done; Done; Done] /\
  book_of (open_after sample_params service_start sample_siege) =
    {| bk_issuers := 1; bk_users := [false]; bk_issuances := 0; bk_entries := 1; bk_shown := 0 |} /\
  Forall strange [SendIssuance 0 (zeros 127); SendPresentation (E := toy) 0 []].
Proof.
  split; [unfold sample_siege; repeat (apply Forall_cons; [exact I|]); apply Forall_nil|]. split; [vm_compute; reflexivity|].
  split; [vm_compute; reflexivity|]. repeat constructor.
Qed.
Definition sample_prey : SignalUser toy :=
  {| su_phone_number := 5;
     su_user := {| us_system_parameters := sample_params; us_issuer_parameters := {| pk_Xn := [smul 7 (sp_h sample_params)] |};
                   us_key := None; us_credential := None |} |}.
Example C103_met_reload :
  wf_user (su_user sample_prey) /\ bits255 (su_phone_number sample_prey) /\
  pk_Xn (us_issuer_parameters (su_user sample_prey)) = [smul 7 (sp_h (us_system_parameters (su_user sample_prey)))].
Proof.
  split; [|split; [unfold bits255; cbn; lia|reflexivity]]. split; [eexists; reflexivity|]. split; discriminate.
Qed.
