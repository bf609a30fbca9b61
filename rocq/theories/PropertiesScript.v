(** What can be done from JavaScript with the parameters that the API makes (C101). *)
From Verif Require Import Toy Algebra SpecCodec IssueFacts CodecFacts CompositeFacts PropertiesPhone PropertiesCodec PropertiesSerde SpecScript PropertiesCalls.
From Coq Require Import Lia.

(** After a byte from 0xc0 on comes one from 0x80 to 0xbf, everywhere in a text. *)
Fixpoint follows (l : bytes) : Prop :=
  match l with
  | x :: tl => (192 <= bz x -> match tl with y :: _ => 128 <= bz y < 192 | [] => True end) /\ follows tl
  | [] => True
  end.
Lemma follows_low x l : bz x < 192 -> follows l -> follows (x :: l).
Proof. intros H F. split; [lia|exact F]. Qed.
Lemma follows_utf8 s : follows (utf8 s).
Proof.
  induction s as [|c s IH]; [exact I|]. change (utf8 (c :: s)) with (utf8_char c ++ utf8 s)%list. unfold utf8_char. cbv zeta.
  assert (T : forall a, bz (zb (128 + a mod 64)) < 192) by (intros a; apply tail_range).
  destruct (c <? 128).
  - apply follows_low; [|exact IH]. rewrite bz_zb. pose proof (Z.mod_pos_bound c 128 eq_refl). rewrite (Z.mod_small (c mod 128)) by lia. lia.
  - destruct (c <? 2048); [|destruct (c <? 65536)]; cbn [app]; (split; [intros _; apply tail_range|]); repeat (apply follows_low; [apply T|]); exact IH.
Qed.
Lemma follows_skip n l : follows l -> follows (skipn n l).
Proof. revert l. induction n as [|n IH]; intros [|x l] H; cbn [skipn]; auto. apply IH, H. Qed.
Lemma no_generator {E} (L : ExtLaws E) s n : firstn 2 (compress (@basepoint E)) = [xe2; xf2] ->
  firstn 32 (skipn n (utf8 s)) <> compress (@basepoint E).
Proof.
  intros Hb H. pose proof (follows_skip n _ (follows_utf8 s)) as F. destruct (skipn n (utf8 s)) as [|x [|y l]].
  - cbn [firstn] in H. rewrite <- H in Hb. discriminate.
  - cbn [firstn] in H. rewrite <- H in Hb. discriminate.
  - cbn [firstn] in H. rewrite <- H in Hb. cbn [firstn] in Hb. injection Hb as -> ->. destruct F as [F _].
    specialize (F ltac:(cbn; lia)). cbn in F. lia.
Qed.
Lemma params_at {E} (L : ExtLaws E) (p : SystemParameters E) rest : firstn 32 (system_parameters_to_bytes p ++ rest) = compress (sp_g p).
Proof.
  unfold system_parameters_to_bytes. rewrite <- app_assoc, firstn_app, (compress_length E L), Nat.sub_diag, firstn_O, app_nil_r.
  apply firstn_all2. rewrite (compress_length E L). lia.
Qed.
Lemma params_only {E} (L : ExtLaws E) b (p : SystemParameters E) : system_parameters_from_bytes b = Ok p -> firstn 32 b = compress (sp_g p).
Proof. intros H. apply (system_parameters_iff L) in H. rewrite H. rewrite <- (app_nil_r (system_parameters_to_bytes p)). apply (params_at L). Qed.
Lemma issuer_at {E} (L : ExtLaws E) b (i : Issuer E) : signal_issuer_from_bytes b = Ok i -> firstn 32 b = compress (sp_g (iss_system_parameters i)).
Proof. intros H. apply (issuer_iff L) in H as [_ ->]. apply (params_at L). Qed.
Lemma user_at {E} (L : ExtLaws E) b (u : SignalUser E) : signal_user_from_bytes b = Ok u ->
  firstn 32 (skipn 32 b) = compress (sp_g (us_system_parameters (su_user u))).
Proof.
  intros H. apply (signal_user_iff L) in H as (n & Hn & _ & _ & ->). rewrite skipn_app, Hn, Nat.sub_diag, skipn_O, (skipn_all2 n) by lia.
  apply (params_at L).
Qed.

(** ** C101: whatever is not refused has another generator *)
(** A call that returns something other than 0 makes new parameters, or has been
    given a string with a generator other than the basepoint. *)
Theorem C101_calls_refuted : forall E, ExtLaws E -> firstn 2 (compress (@basepoint E)) = [xe2; xf2] ->
  forall fuel os f v os', @js_run E fuel os f = JsReturns v os' -> v <> JNumber 0 ->
  (exists seed, f = JsSystemParametersCreate seed) \/
  exists j n (g : point E), where_g f = Some (j, n) /\ has_at j n g /\ g <> basepoint.
Proof.
  intros E L Hb fuel os f v os' H Hv. destruct (C87_js_otherwise E fuel os f v os' H) as [[ser ->]|[-> _]]; [|contradiction].
  apply C87_js_calls in H as (a & [_ Ha] & Hg).
  assert (K : forall s n (g : point E), firstn 32 (skipn n (utf8 s)) = compress g -> g <> basepoint).
  { intros s n g Hs ->. exact (no_generator L s n Hb Hs). }
  destruct f, a; try contradiction; [left; eauto|..]; right; cbn [where_g gives] in *;
    repeat match goal with
    | Hx : _ /\ _ |- _ => destruct Hx
    | Hx : exists _, _ |- _ => destruct Hx
    | Hx : text ?x ?b |- _ => let s := fresh "s" in destruct Hx as (s & -> & ->)
    end;
    match goal with
    | Hx : system_parameters_from_bytes (utf8 ?s) = Ok ?p |- _ => apply (params_only L) in Hx; exists (JString s), 0%nat, (sp_g p)
    | Hx : signal_issuer_from_bytes (utf8 ?s) = Ok ?i |- _ => apply (issuer_at L) in Hx; exists (JString s), 0%nat, (sp_g (iss_system_parameters i))
    | Hx : signal_user_from_bytes (utf8 ?s) = Ok ?u |- _ =>
      apply (user_at L) in Hx; exists (JString s), 32%nat, (sp_g (us_system_parameters (su_user u)))
    end; (split; [reflexivity|]);
    match goal with |- has_at (JString ?s) ?n ?g /\ _ => assert (Hat : firstn 32 (skipn n (utf8 s)) = compress g) by (try rewrite skipn_O; assumption) end;
    (split; [eexists; split; [reflexivity|exact Hat]|exact (K _ _ _ Hat)]).
Qed.
Print Assumptions C101_calls_refuted.

(** So with the parameters that the API makes, or any with the basepoint for [g],
    nothing is computed: whatever JavaScript value is passed for them, or for an
    issuer or a user that has them, it is not read as such. *)
Theorem C101_objects_refuted : forall E, ExtLaws E -> firstn 2 (compress (@basepoint E)) = [xe2; xf2] ->
  forall v,
  (forall p : SystemParameters E, json_deserialize (codec_of E TSystemParameters) v = Ok p -> sp_g p <> basepoint) /\
  (forall i : Issuer E, json_deserialize (codec_of E TIssuer) v = Ok i -> sp_g (iss_system_parameters i) <> basepoint) /\
  (forall i : Issuer E, json_deserialize (codec_of E TSignalIssuer) v = Ok i -> sp_g (iss_system_parameters i) <> basepoint) /\
  (forall u : User E, json_deserialize (codec_of E TUser) v = Ok u -> sp_g (us_system_parameters u) <> basepoint) /\
  (forall u : SignalUser E, json_deserialize (codec_of E TSignalUser) v = Ok u -> sp_g (us_system_parameters (su_user u)) <> basepoint).
Proof.
  intros E L Hb v.
  assert (K : forall s n (g : point E), firstn 32 (skipn n (utf8 s)) = compress g -> g <> basepoint).
  { intros s n g Hs ->. exact (no_generator L s n Hb Hs). }
  assert (D : forall t x, json_deserialize (codec_of E t) v = Ok x -> exists s, v = JString s /\ cd_from_bytes (codec_of E t) (utf8 s) = Ok x)
    by (intros t x; apply C51_reads_strings).
  split; [|split; [|split; [|split]]]; intros x H; apply D in H as (s & _ & H); cbn [codec_of make_codec cd_from_bytes cd_value] in H;
    match type of H with map_err _ ?c = _ => destruct c as [y|e|] eqn:Hy; try discriminate; cbn [map_err] in H; injection H as <- end.
  - apply (K s 0%nat), (params_only L), Hy.
  - apply (K s 0%nat), (issuer_at L), Hy.
  - apply (K s 0%nat), (issuer_at L), Hy.
  - apply (K s 0%nat). apply (user_iff L) in Hy as [_ ->]. apply (params_at L).
  - apply (K s 32%nat), (user_at L), Hy.
Qed.
Print Assumptions C101_objects_refuted.

(** What can be done is what has only texts for its objects; ASCII is text. *)
Theorem C101_texts : forall E fuel os a ser os', gives E fuel os a ser os' ->
  (exists f, js_is f a /\ @js_run E fuel os f = JsReturns (numbers ser) os') <->
  seeded a /\ exists bs, values_of a = Some bs /\ Forall is_text bs.
Proof.
  intros E fuel os a ser os' Hg. split.
  - intros (f & [Hs Hf] & _). split; [exact Hs|]. destruct f, a; try contradiction; cbn [values_of]; eexists; (split; [reflexivity|]);
      repeat match goal with Hx : _ /\ _ |- _ => destruct Hx | Hx : text _ _ |- _ => destruct Hx as (? & _ & ->) end;
      repeat (apply Forall_cons; [eexists; reflexivity|]); apply Forall_nil.
  - intros (Hs & bs & Hv & Ht). assert (J : exists f, js_is f a).
    { unfold js_is. destruct a; cbn [values_of] in Hv; try discriminate; injection Hv as <-;
        repeat match goal with Hx : Forall is_text (_ :: _) |- _ => apply Forall_cons_iff in Hx as [(? & ->) ?] end.
      - exists (JsSystemParametersCreate seed). auto.
      - exists (JsIssuerCreate (JString x) seed); split; [exact Hs|]; repeat split; eexists; split; reflexivity.
      - exists (JsIssuerNew (JString x) (JString x0)); split; [exact Hs|]; repeat split; eexists; split; reflexivity.
      - exists (JsIssuerGetIssuerParameters (JString x)); split; [exact Hs|]; repeat split; eexists; split; reflexivity.
      - exists (JsIssuerIssue (JString x) number seed); split; [exact Hs|]; repeat split; eexists; split; reflexivity.
      - exists (JsIssuerVerify (JString x) (JString x0)); split; [exact Hs|]; repeat split; eexists; split; reflexivity.
      - exists (JsIssuerVerifyRosterMembership (JString x) (JString x0)); split; [exact Hs|]; repeat split; eexists; split; reflexivity.
      - exists (JsUserObtainFinish number (JString x) (JString x0) (JString x1)); split; [exact Hs|]; repeat split; eexists; split; reflexivity.
      - exists (JsUserShow (JString x) (JString x0) seed); split; [exact Hs|]; repeat split; eexists; split; reflexivity. }
    destruct J as (f & Hf). exists f. split; [exact Hf|]. apply C87_js_calls. eauto.
Qed.
Print Assumptions C101_texts.
Lemma ascii_text b : Forall (fun x => bz x < 128) b -> is_text b.
Proof.
  intros H. exists (map bz b). induction H as [|x b Hx _ IH]; [reflexivity|]. cbn [map]. unfold utf8 in *. cbn [flat_map]. rewrite <- IH.
  pose proof (bz_range x). unfold utf8_char. cbv zeta. destruct (Z.ltb_spec (bz x) 128); [|lia].
  rewrite Z.mod_small by lia. rewrite zb_bz. reflexivity.
Qed.

(** ** Examples *)
(** Parameters with the double of the basepoint for [g] are a text, and a key is made for them. *)
Definition text_params : SystemParameters toy_js := Build_SystemParameters toy_js (pt 2) (pt 3).
Definition text_value : json := JString (map bz (system_parameters_to_bytes text_params)).
Definition made_key (r : js_result) : option nat := match r with JsReturns (JArray l) _ => Some (List.length l) | _ => None end.
Example C101_met_call : made_key (@js_run toy_js 1 (toy_stream 1) (JsIssuerCreate text_value (zeros 32))) = Some 96%nat.
Proof. vm_compute. reflexivity. Qed.
Example C101_met_other : has_at (E := toy_js) text_value 0 (pt 2) /\ (pt 2 : point toy_js) <> basepoint.
Proof.
  split; [eexists; split; [reflexivity|]; vm_compute; reflexivity|]. intros H. apply (f_equal tv) in H. vm_compute in H. discriminate.
Qed.
Example C101_met_texts : is_text (system_parameters_to_bytes text_params) /\
  exists p : SystemParameters toy_js, system_parameters_from_bytes (system_parameters_to_bytes text_params) = Ok p.
Proof.
  split.
  - apply ascii_text, Forall_forall. intros x Hx. apply Z.ltb_lt. revert x Hx. apply forallb_forall. vm_compute. reflexivity.
  - exists text_params. apply (system_parameters_iff toy_js_laws). reflexivity.
Qed.
