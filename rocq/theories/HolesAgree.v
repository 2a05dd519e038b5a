From Coq Require Import String Ascii ZArith NArith Lia Bool Arith List.
From stdpp Require Import gmap strings.
From RecordUpdate Require Import RecordSet.
From Verif Require Import GoStr Codec Json GoTime GoErr Role Name Email Random Types Env Password ApiKey PublicKey Mfa User Persist Fs Database Holes SpecHoles HolesFacts.
From Verif Require Inv IsolationFacts PropertiesMessage.
Import ListNotations.
Import RecordSetNotations.
Open Scope string_scope.

(** ** Calls *)
Lemma bare_users db : db_users (bare_db db) = map bare (db_users db).
Proof. reflexivity. Qed.
Lemma at_ref_bare db x : at_ref (bare_db db) x = option_map (fun p => (p.1, bare p.2)) (at_ref db x).
Proof.
  unfold at_ref. destruct x as [i|]; [|reflexivity]. rewrite bare_users. change (map bare (db_users db)) with (bare <$> db_users db).
  rewrite list_lookup_fmap. now destruct (db_users db !! i).
Qed.
Lemma by_username_bare E db s : by_username E (bare_db db) s = option_map (fun p => (p.1, bare p.2)) (by_username E db s).
Proof. unfold by_username. destruct (zlen s <? 2)%Z; [reflexivity|]. apply at_ref_bare. Qed.
Lemma by_email_bare E db s : by_email E (bare_db db) s = option_map (fun p => (p.1, bare p.2)) (by_email E db s).
Proof. unfold by_email. destruct (zlen s <? 6)%Z; [reflexivity|]. apply at_ref_bare. Qed.
Lemma get_user_bare E db s : get_user E (bare_db db) s = option_map (fun p => (p.1, bare p.2)) (get_user E db s).
Proof. unfold get_user. destruct (contains s "@"); [apply by_email_bare|apply by_username_bare]. Qed.
Lemma validate_bare E db r : validate_identity E (bare_db db) r =
  match validate_identity E db r with inl (i, u) => inl (i, bare u) | inr e => inr e end.
Proof.
  unfold validate_identity. rewrite by_username_bare, by_email_bare.
  destruct (by_username E db (ru_username (rq_user r))) as [[i u]|]; [|reflexivity]. simpl.
  destruct (by_email E db (ru_email (rq_user r))) as [[j v]|]; [|reflexivity]. simpl.
  change (u_id (bare u)) with (u_id u). change (u_id (bare v)) with (u_id v). now destruct (String.eqb (u_id u) (u_id v)).
Qed.
Lemma get_user_at E db s i u : get_user E db s = Some (i, u) -> db_users db !! i = Some u.
Proof.
  unfold get_user, by_email, by_username, at_ref. intros H.
  destruct (contains s "@").
  - destruct (zlen s <? 6)%Z; [discriminate H|]. destruct (ref_email db !! lower E s) as [j|]; [|discriminate H].
    destruct (db_users db !! j) eqn:Hj; [|discriminate H]. injection H as -> ->. exact Hj.
  - destruct (zlen s <? 2)%Z; [discriminate H|]. destruct (ref_username db !! lower E s) as [j|]; [|discriminate H].
    destruct (db_users db !! j) eqn:Hj; [|discriminate H]. injection H as -> ->. exact Hj.
Qed.
Lemma lists_at_lift db i u : db_users db !! i = Some u -> lists_at (lift_db db) i = lists_of u.
Proof.
  intros H. unfold lists_at. simpl. change (map lists_of (db_users db)) with (lists_of <$> db_users db).
  now rewrite list_lookup_fmap, H.
Qed.
Lemma finish_seen nd db fs r w : o_req (finish nd db fs r w) = r /\ o_res (finish nd db fs r w) <> OPanic.
Proof.
  unfold finish, commit, commit_to. destruct (write_db _ _ _ _) as [fs' []]; simpl; split; try reflexivity; discriminate.
Qed.
Lemma find_exists {A} (f : A -> bool) l : existsb f l = match find f l with Some _ => true | None => false end.
Proof. induction l as [|x l IH]; simpl; [reflexivity|]. now destruct (f x). Qed.
Lemma without_some {A} (id : A -> string) s (l : list A) :
  h_without id s (map Some l) = ROk (existsb (fun k => String.eqb (id k) s) l, map Some (List.filter (fun k => negb (String.eqb (id k) s)) l)).
Proof.
  unfold h_without. rewrite walk_some. f_equal.
  enough (H : forall b acc, fold_left (fun b k => if String.eqb (id k) s then (true, b.2) else (b.1, (b.2 ++ [Some k])%list)) l (b, acc) =
    (b || existsb (fun k => String.eqb (id k) s) l, (acc ++ map Some (List.filter (fun k => negb (String.eqb (id k) s)) l))%list)).
  { rewrite H. reflexivity. }
  induction l as [|k l IH]; intros b acc; simpl.
  - now rewrite orb_false_r, app_nil_r.
  - destruct (String.eqb (id k) s); simpl; rewrite IH.
    + now rewrite orb_true_r.
    + simpl. rewrite <- app_assoc. reflexivity.
Qed.
Lemma dup_find t l : dup_token t l =
  match find (fun k => String.eqb (t_secret k) (t_secret t) || String.eqb (t_comment k) (t_comment t)) l with
  | Some k => Some (EWith ErrAddMfaToken [AErr (EStd (if String.eqb (t_secret k) (t_secret t) then ErrDuplicateMfaTokenSecret else ErrDuplicateMfaTokenComment))])
  | None => None
  end.
Proof.
  induction l as [|k l IH]; simpl; [reflexivity|].
  destruct (String.eqb (t_secret k) (t_secret t)) eqn:H1; simpl; [now rewrite H1|].
  destruct (String.eqb (t_comment k) (t_comment t)) eqn:H2; simpl; [now rewrite H1|exact IH].
Qed.
Lemma verify_find E r id l : (verify_tokens E r id l).2 =
  match find (answers id) l with
  | Some t => match (webauthn_request E t (rw_request (rq_webauthn r))).2 with
              | Some c => if String.eqb c (rw_challenge (rq_webauthn r)) then None else Some (EStd ErrWebAuthnVerifyRequest)
              | None => Some (EStd ErrWebAuthnVerifyRequest)
              end
  | None => Some (EStd ErrWebAuthnVerifyRequest)
  end.
Proof.
  induction l as [|t l IH]; simpl; [reflexivity|]. unfold answers at 1. fold (answers id t).
  change (negb (t_disabled t) && String.eqb (t_type t) "u2f" && match t_params t !! "u2f_id" with Some x => String.eqb id x | None => false end) with (answers id t).
  destruct (answers id t).
  - destruct (webauthn_request E t (rw_request (rq_webauthn r))) as [t' res]. reflexivity.
  - destruct (verify_tokens E r id l) as [l' res]. exact IH.
Qed.
Lemma fold_app {A} (f : A -> string) l acc : fold_left (fun b r => (b ++ [f r])%list) l acc = (acc ++ map f l)%list.
Proof. revert acc; induction l as [|x l IH]; intros acc; simpl; [now rewrite app_nil_r|]. rewrite IH, <- app_assoc. reflexivity. Qed.

Lemma named_agrees E nd op db fs r (wrap : goerr -> goerr) (k : Lists -> HCall) :
  (forall e, validate_identity E db r = inr e -> o_res (exec E nd op db fs r) = OErr (wrap e)) ->
  (forall i u, validate_identity E db r = inl (i, u) -> db_users db !! i = Some u -> agrees op (k (lists_of u)) (exec E nd op db fs r)) ->
  agrees op match validate_identity E (hd_db (lift_db db)) r with inr e => HErr (wrap e) | inl (i, _) => k (lists_at (lift_db db) i) end (exec E nd op db fs r).
Proof.
  intros H1 H2. simpl hd_db. rewrite validate_bare. destruct (validate_identity E db r) as [[i u]|e] eqn:Hv.
  - pose proof (Inv.validate_at _ _ _ _ _ Hv) as Hi. rewrite (lists_at_lift _ _ _ Hi). now apply H2 with i.
  - simpl. now apply H1.
Qed.
Lemma finish_agrees op nd db fs r w i u v l : db_users db !! i = Some u -> lists_of v = l ->
  match op with OpAddPublicKey | OpDeletePublicKey | OpAddMfaToken | OpDeleteMfaToken => True | _ => False end ->
  agrees op (HGoes r l) (finish nd (set_user db i v) fs r w).
Proof.
  intros Hi Hl Hop. destruct (finish_seen nd (set_user db i v) fs r w) as [H1 H2]. split; [exact H1|]. split; [exact H2|]. split.
  - now destruct op.
  - intros _. exists i, v. split; [|exact Hl]. rewrite IsolationFacts.finish_users. now apply IsolationFacts.set_user_at with u.
Qed.
Lemma no_panic E nd op db fs r : op <> OpAddMfaToken -> o_res (exec E nd op db fs r) <> OPanic.
Proof. intros H Hp. apply H. exact (PropertiesMessage.C92_panic E nd op db fs r Hp). Qed.
Lemma hcall_agrees E nd op db fs r : agrees op (hcall E nd op (lift_db db) r) (exec E nd op db fs r).
Proof.
  destruct op; try (apply no_panic; discriminate).
  - (* authenticate *)
    unfold hcall. simpl hd_db. rewrite get_user_bare. simpl exec. unfold db_authenticate.
    destruct (get_user E db (ru_username (rq_user r))) as [[i u]|] eqn:Hg; [|simpl; discriminate]. simpl option_map. cbv iota.
    rewrite (lists_at_lift _ _ _ (get_user_at _ _ _ _ _ Hg)).
    destruct (negb (String.eqb (ru_password (rq_user r)) "")).
    { destruct (verify_password E u (ru_password (rq_user r))); simpl; discriminate. }
    destruct (negb (String.eqb (rw_request (rq_webauthn r)) "")); [|simpl; discriminate].
    unfold h_verify_webauthn, verify_webauthn. destruct (unpack_request E (rw_request (rq_webauthn r))) as [q|e]; [|reflexivity].
    simpl ls_mfa. rewrite scan_some. pose proof (verify_find E r (wq_id q) (u_mfa u)) as Hf.
    destruct (verify_tokens E r (wq_id q) (u_mfa u)) as [l res]. simpl in Hf. subst res.
    destruct (find (answers (wq_id q)) (u_mfa u)) as [t|]; [|reflexivity].
    destruct ((webauthn_request E t (rw_request (rq_webauthn r))).2) as [c|]; [|reflexivity].
    destruct (String.eqb c (rw_challenge (rq_webauthn r))); [|reflexivity].
    split; [reflexivity|]. split; [discriminate|]. split; [reflexivity|]. intros H. now destruct H.
  - (* add public key *)
    apply (named_agrees E nd OpAddPublicKey db fs r _ (fun l => goes (h_add_public_key E nd (ls_pubkeys l) r) (fun x => HGoes r (l <| ls_pubkeys := x |>)))).
    + intros e He. simpl. unfold db_add_public_key. now rewrite He.
    + intros i u Hv Hi. simpl. unfold db_add_public_key. rewrite Hv. unfold h_add_public_key, add_public_key.
      destruct (new_public_key E nd r) as [k|e]; [|reflexivity]. rewrite scan_some, find_exists.
      destruct (find _ (u_pubkeys u)); [reflexivity|]. simpl goes.
      apply finish_agrees with u; [exact Hi| |exact I]. unfold lists_of. simpl. rewrite map_app. reflexivity.
  - (* get public keys *)
    apply (named_agrees E nd OpGetPublicKeys db fs r _ (fun l => goes (walk (fun b k => if negb (String.eqb (pk_usage k) (rk_usage (rq_key r))) then b else if pk_disabled k then b else b_add b k) (ls_pubkeys l) b_new)
                     (fun b => HGoes (r <| rq_payload := PPublicKeys b |>) l))).
    + intros e He. simpl. unfold db_get_public_keys. now rewrite He.
    + intros i u Hv Hi. simpl. unfold db_get_public_keys. rewrite Hv, walk_some.
      split; [reflexivity|]. split; [discriminate|]. split; [reflexivity|]. intros _. now exists i, u.
  - (* delete public key *)
    apply (named_agrees E nd OpDeletePublicKey db fs r _ (fun l => goes (h_delete_public_key (ls_pubkeys l) r) (fun x => HGoes r (l <| ls_pubkeys := x |>)))).
    + intros e He. simpl. unfold db_delete_public_key. now rewrite He.
    + intros i u Hv Hi. simpl. unfold db_delete_public_key. rewrite Hv. unfold h_delete_public_key, delete_public_key.
      simpl ls_pubkeys. rewrite without_some. destruct (existsb _ (u_pubkeys u)); [|reflexivity]. simpl goes.
      apply finish_agrees with u; [exact Hi|reflexivity|exact I].
  - (* identify *)
    unfold hcall. simpl hd_db. rewrite get_user_bare. simpl exec. unfold db_identify.
    destruct (get_user E db (ru_username (rq_user r))) as [[i u]|] eqn:Hg; [|simpl; discriminate]. simpl option_map. cbv iota.
    pose proof (get_user_at _ _ _ _ _ Hg) as Hi. rewrite (lists_at_lift _ _ _ Hi).
    unfold h_roles_claim. simpl ls_roles. rewrite walk_some, fold_app.
    assert (HF : (if rf_enabled (rq_flags r) then h_get_flags (ls_mfa (lists_of u)) r else ROk r) = ROk (if rf_enabled (rq_flags r) then get_flags u r else r)).
    { destruct (rf_enabled (rq_flags r)); [|reflexivity]. apply walk_some. }
    rewrite HF. simpl goes. split.
    { simpl. unfold mail_claim, name_claim, challenges, h_challenges, roles_claim. simpl. now destruct (u_mfa u). }
    split; [discriminate|]. split; [reflexivity|]. intros _. now exists i, u.
  - (* add token *)
    apply (named_agrees E nd OpAddMfaToken db fs r _ (fun l => let (r, x) := h_add_mfa_token E nd (ls_mfa l) r in goes x (fun x => HGoes r (l <| ls_mfa := x |>)))).
    + intros e He. simpl. unfold db_add_mfa_token. now rewrite He.
    + intros i u Hv Hi. simpl. unfold db_add_mfa_token. rewrite Hv. unfold h_add_mfa_token, add_mfa_token.
      destruct (new_mfa_token E nd r) as [q [t|e|]]; [|reflexivity|reflexivity]. rewrite scan_some, dup_find.
      destruct (find _ (u_mfa u)); [reflexivity|]. simpl goes.
      apply finish_agrees with u; [exact Hi| |exact I]. unfold lists_of. simpl. rewrite map_app. reflexivity.
  - (* get tokens *)
    apply (named_agrees E nd OpGetMfaTokens db fs r _ (fun l => goes (walk (fun b t => if t_disabled t then b else b_add b t) (ls_mfa l) b_new) (fun b => HGoes (r <| rq_payload := PMfaTokens b |>) l))).
    + intros e He. simpl. unfold db_get_mfa_tokens. now rewrite He.
    + intros i u Hv Hi. simpl. unfold db_get_mfa_tokens. rewrite Hv, walk_some.
      split; [reflexivity|]. split; [discriminate|]. split; [reflexivity|]. intros _. now exists i, u.
  - (* delete token *)
    apply (named_agrees E nd OpDeleteMfaToken db fs r _ (fun l => goes (h_delete_mfa_token (ls_mfa l) r) (fun x => HGoes r (l <| ls_mfa := x |>)))).
    + intros e He. simpl. unfold db_delete_mfa_token. now rewrite He.
    + intros i u Hv Hi. simpl. unfold db_delete_mfa_token. rewrite Hv. unfold h_delete_mfa_token, delete_mfa_token.
      simpl ls_mfa. rewrite without_some. destruct (existsb _ (u_mfa u)); [|reflexivity]. simpl goes.
      apply finish_agrees with u; [exact Hi|reflexivity|exact I].
Qed.

(** ** Decoding *)
(** [y] decoded one way, [x] the other: the same up to [f], unless the first is not modelled *)
Definition same_as {Y X} (f : Y -> X) (a : dres Y) (b : dres X) : Prop :=
  match a with DOk y => b = DOk (f y) | DErr => b = DErr | DUnmod => True end.
Definition sim {Y X} (f : Y -> X) (a : field Y) (b : field X) : Prop :=
  f_name a = f_name b /\
  (forall v y, same_as f (dmap (fun x => f_set a x y) (dec_val (f_codec a) (f_get a y) v)) (dmap (fun x => f_set b x (f y)) (dec_val (f_codec b) (f_get b (f y)) v))) /\
  (forall y, enc (f_codec a) (f_get a y) = enc (f_codec b) (f_get b (f y))).
Lemma find_sim {Y X} (f : Y -> X) fs gs k : List.Forall2 (sim f) fs gs ->
  match find_field fs k, find_field gs k with Some a, Some b => sim f a b | None, None => True | _, _ => False end.
Proof.
  unfold find_field. induction 1 as [|a b fs gs Hab _ IH]; simpl; [exact I|]. rewrite <- (proj1 Hab).
  destruct (String.eqb (fold_key (f_name a)) (fold_key k)); [exact Hab|exact IH].
Qed.
Lemma dec_members_sim {Y X} (f : Y -> X) fs gs : List.Forall2 (sim f) fs gs -> forall ms y, same_as f (dec_members fs ms y) (dec_members gs ms (f y)).
Proof.
  intros HF. induction ms as [|[k v] ms IH]; intros y; simpl; [reflexivity|].
  pose proof (find_sim f fs gs k HF) as Hk. destruct (find_field fs k) as [a|], (find_field gs k) as [b|]; try contradiction; [|apply IH].
  pose proof (proj1 (proj2 Hk) v y) as Hd. destruct (dec_val (f_codec a) (f_get a y) v) as [x| |]; simpl in *; [| |exact I].
  - destruct (dec_val (f_codec b) (f_get b (f y)) v) as [x'| |]; simpl in *; try discriminate Hd. injection Hd as ->. apply IH.
  - destruct (dec_val (f_codec b) (f_get b (f y)) v) as [x'| |]; simpl in *; try discriminate Hd. reflexivity.
Qed.
Lemma dec_struct_sim {Y X} (f : Y -> X) fs gs : List.Forall2 (sim f) fs gs -> forall j y, same_as f (dec_struct fs y j) (dec_struct gs (f y) j).
Proof. intros HF [] y; try reflexivity. apply dec_members_sim, HF. Qed.
Lemma enc_struct_sim {Y X} (f : Y -> X) fs gs : List.Forall2 (sim f) fs gs -> forall y, enc_struct fs y = enc_struct gs (f y).
Proof.
  intros HF y. unfold enc_struct. f_equal. induction HF as [|a b fs gs Hab _ IH]; simpl; [reflexivity|].
  rewrite IH, (proj2 (proj2 Hab) y), (proj1 Hab). reflexivity.
Qed.
(** a field with the same codec *)
Lemma sim_same {Y X T} (f : Y -> X) n (p : Y -> T) s (q : X -> T) t c :
  (forall y, q (f y) = p y) -> (forall v y, t v (f y) = f (s v y)) -> sim f (Field n p s c) (Field n q t c).
Proof.
  intros Hp Ht. split; [reflexivity|]. split; simpl.
  - intros v y. rewrite Hp. destruct (dec_val c (p y) v) as [x| |]; simpl; [|reflexivity|exact I]. now rewrite Ht.
  - intros y. now rewrite Hp.
Qed.
Lemma dlist_sim {A B} (f : A -> B) d d' l : (forall j, In j l -> same_as f (d j) (d' j)) -> same_as (map f) (dlist d l) (dlist d' l).
Proof.
  induction l as [|j l IH]; simpl; intros H; [reflexivity|].
  pose proof (H j (or_introl eq_refl)) as Hj. destruct (d j) as [a| |]; simpl in Hj; [|rewrite Hj; reflexivity|exact I].
  rewrite Hj. simpl. specialize (IH (fun j' Hj' => H j' (or_intror Hj'))).
  destruct (dlist d l) as [x| |]; simpl in IH; simpl; [rewrite IH; reflexivity|rewrite IH; reflexivity|exact I].
Qed.
(** a list of structs, without and with null elements *)
Lemma sim_list {Y X A} (f : Y -> X) n (p : Y -> list A) s (q : X -> list (option A)) t (e : A -> json) d :
  (forall y, q (f y) = map Some (p y)) -> (forall v y, t (map Some v) (f y) = f (s v y)) ->
  sim f (Field n p s (list_ e d)) (Field n q t (opt_list e d)).
Proof.
  intros Hp Ht. split; [reflexivity|]. split; simpl.
  - intros v y. unfold dec_val. destruct v; simpl; try reflexivity.
    + f_equal. exact (Ht [] y).
    + rewrite Hp. destruct (p y) as [|z zs]; simpl; [|exact I].
      assert (HS : same_as (map Some) (dlist (fun j => match j with JNull => DUnmod | _ => d j end) l)
                            (dlist (fun j => match j with JNull => DOk None | _ => dmap Some (d j) end) l)).
      { apply dlist_sim. intros j _. destruct j; simpl; try exact I; destruct (d _); reflexivity. }
      destruct (dlist _ l) as [x| |]; simpl in HS; rewrite ?HS; simpl; [now rewrite Ht|reflexivity|exact I].
  - intros y. rewrite Hp. destruct (p y) as [|z zs]; simpl; [reflexivity|]. now rewrite map_map.
Qed.
Lemma lift_z : lift_raw raw_z = huser_z.
Proof. reflexivity. Qed.
Lemma user_sim : List.Forall2 (sim lift_raw) user_f huser_f.
Proof.
  unfold user_f, huser_f.
  repeat constructor; first [apply (sim_same lift_raw); intros; reflexivity | apply (sim_list lift_raw); intros; reflexivity].
Qed.
Lemma sim_users : sim lift_content (fld "users" rc_users (opt_list (enc_struct user_f) (dec_struct user_f raw_z)))
                                   (fld "users" hc_users (opt_list (enc_struct huser_f) (dec_struct huser_f huser_z))).
Proof.
  split; [reflexivity|]. split; simpl.
  - intros v y. unfold dec_val. destruct v; simpl; try reflexivity.
    destruct (rc_users y) as [|z zs]; simpl; [|exact I].
    assert (HS : same_as (map (option_map lift_raw)) (dlist (fun j => match j with JNull => DOk None | _ => dmap Some (dec_struct user_f raw_z j) end) l)
                         (dlist (fun j => match j with JNull => DOk None | _ => dmap Some (dec_struct huser_f huser_z j) end) l)).
    { apply dlist_sim. intros j _.
      pose proof (dec_struct_sim lift_raw user_f huser_f user_sim j raw_z) as Hd. rewrite lift_z in Hd.
      destruct j; try reflexivity; destruct (dec_struct user_f raw_z _) as [x| |]; simpl in *; [|now rewrite Hd|exact I]. now rewrite Hd. }
    destruct (dlist _ l) as [x| |] eqn:HL; simpl in HS; rewrite ?HS; simpl; [reflexivity|reflexivity|exact I].
  - intros y. destruct (rc_users y) as [|z zs]; simpl; [reflexivity|]. do 3 f_equal.
    + destruct z as [z|]; [apply (enc_struct_sim lift_raw _ _ user_sim)|reflexivity].
    + rewrite map_map. apply map_ext. intros [w|]; [apply (enc_struct_sim lift_raw _ _ user_sim)|reflexivity].
Qed.
Lemma content_sim : List.Forall2 (sim lift_content) content_f hcontent_f.
Proof.
  unfold content_f, hcontent_f.
  repeat constructor; try (apply (sim_same lift_content); intros; reflexivity). all: apply sim_users.
Qed.
Lemma hunmarshal_same s : same_as lift_content (unmarshal s) (hunmarshal s).
Proof.
  unfold unmarshal, hunmarshal. destruct (parse (los s)) as [[]|]; try reflexivity.
  apply (dec_struct_sim lift_content _ _ content_sim _ content_z).
Qed.

(** ** Opening *)
Lemma some_times {A} (f : A -> bool) l : forallb (opt_all f) (map Some l) = forallb f l.
Proof. induction l as [|x l IH]; simpl; [reflexivity|]. now rewrite IH. Qed.
Lemma huser_times_lift r : huser_times (lift_raw r) = raw_user_times r.
Proof.
  unfold huser_times, raw_user_times. simpl. rewrite !some_times.
  destruct (forallb (opt_all password_times) (raw_passwords r)), (forallb pubkey_times (u_pubkeys (raw_user r))),
    (forallb (opt_all apikey_times) (raw_keys r)), (forallb mfa_times (u_mfa (raw_user r))), (opt_all lockout_times (u_lockout (raw_user r))),
    (time_ok (u_created (raw_user r))), (time_ok (u_modified (raw_user r))); reflexivity.
Qed.
Lemma hmarshal_lift c : hmarshal (lift_content c) = marshal_raw c.
Proof.
  unfold hmarshal, marshal_raw. rewrite <- (enc_struct_sim lift_content _ _ content_sim c).
  replace (hcontent_times (lift_content c)) with (raw_times c); [reflexivity|].
  unfold hcontent_times, raw_times. simpl. f_equal. induction (rc_users c) as [|[r|] l IH]; simpl; [reflexivity| |exact IH].
  now rewrite huser_times_lift, IH.
Qed.
Lemma load_user_bare E db r : load_user E (bare_db db) (h_raw (lift_raw r)) =
  match load_user E db r with ROk d => ROk (bare_db d) | RErr e => RErr e | RPanic => RPanic end.
Proof.
  unfold load_user. rewrite bare_users, map_length.
  change (raw_valid (h_raw (lift_raw r))) with (raw_valid r). simpl raw_user.
  destruct (raw_valid r); [reflexivity|]. change (u_username (bare (raw_user r))) with (u_username (raw_user r)).
  change (u_id (bare (raw_user r))) with (u_id (raw_user r)).
  change (ref_username (bare_db db)) with (ref_username db). change (ref_id (bare_db db)) with (ref_id db).
  destruct (ref_username db !! lower E (u_username (raw_user r))); [reflexivity|]. destruct (ref_id db !! u_id (raw_user r)); [reflexivity|].
  change (ref_email (bare_db db)) with (ref_email db). change (raw_emails (h_raw (lift_raw r))) with (raw_emails r).
  destruct (load_emails _ _ _ _) as [[es me]|e|]; [|reflexivity|reflexivity].
  change (raw_passwords (h_raw (lift_raw r))) with (raw_passwords r). destruct (load_passwords (raw_passwords r)); [|reflexivity].
  change (ref_apikey (bare_db db)) with (ref_apikey db). change (raw_keys (h_raw (lift_raw r))) with (raw_keys r).
  destruct (load_keys _ _ _) as [[ks mk]|e|]; [|reflexivity|reflexivity].
  f_equal. unfold bare_db. simpl. f_equal. unfold set. simpl. f_equal. rewrite map_app. reflexivity.
Qed.
Lemma load_users_bare E l : forall db, load_users E (bare_db db) (map (option_map h_raw) (map (option_map lift_raw) l)) =
  match load_users E db l with Loaded d => Loaded (bare_db d) | x => x end.
Proof.
  induction l as [|[r|] l IH]; intros db; simpl; [reflexivity| |reflexivity].
  change (load_user E (bare_db db) (r <| raw_user ::= bare |>)) with (load_user E (bare_db db) (h_raw (lift_raw r))).
  rewrite load_user_bare. destruct (load_user E db r) as [d|e|]; [apply IH|reflexivity|reflexivity].
Qed.
Lemma load_user_lists E db r d : load_user E db r = ROk d -> map lists_of (db_users d) = (map lists_of (db_users db) ++ [lists_of (raw_user r)])%list.
Proof.
  unfold load_user. intros H. destruct (raw_valid r); [discriminate H|].
  destruct (ref_username db !! _); [discriminate H|]. destruct (ref_id db !! _); [discriminate H|].
  destruct (load_emails _ _ _ _) as [[es me]|e|]; try discriminate H. destruct (load_passwords _); [|discriminate H].
  destruct (load_keys _ _ _) as [[ks mk]|e|]; try discriminate H. injection H as <-. unfold db_users. simpl. rewrite map_app. reflexivity.
Qed.
Lemma load_users_lists E l : forall db d, load_users E db l = Loaded d ->
  map lists_of (db_users d) = (map lists_of (db_users db) ++ flat_map (fun h => match h with Some h => [h_lists h] | None => [] end) (map (option_map lift_raw) l))%list.
Proof.
  induction l as [|[r|] l IH]; intros db d; simpl; intros H.
  - injection H as <-. now rewrite app_nil_r.
  - destruct (load_user E db r) as [d'|e|] eqn:Hr; try discriminate H. rewrite (IH _ _ H), (load_user_lists _ _ _ _ Hr), <- app_assoc. reflexivity.
  - discriminate H.
Qed.
Lemma hload_lift E fp c : hload E fp (lift_content c) = lift_load (load_users E (empty_db fp c) (rc_users c)).
Proof.
  unfold hload. change (empty_db fp (hbare (lift_content c))) with (bare_db (empty_db fp c)).
  change (rc_users (hbare (lift_content c))) with (map (option_map h_raw) (map (option_map lift_raw) (rc_users c))).
  rewrite load_users_bare. destruct (load_users E (empty_db fp c) (rc_users c)) as [d| | | |] eqn:Hl; try reflexivity.
  simpl. f_equal. unfold lift_db. f_equal. rewrite (load_users_lists _ _ _ _ Hl). reflexivity.
Qed.
Lemma hload_bytes_lift E nd fp fs b : unmarshal b <> DUnmod ->
  hload_bytes E nd fp fs b = ((load_bytes E nd fp fs b).1, lift_load (load_bytes E nd fp fs b).2).
Proof.
  intros Hu. pose proof (hunmarshal_same b) as Hs. unfold hload_bytes, load_bytes. destruct (unmarshal b) as [c| |]; simpl in Hs; [| |now destruct Hu].
  - rewrite Hs. simpl hc_policy. destruct (policy_changed (rc_policy c)).
    + change (hbump nd (lift_content c <| hc_policy ::= enforce_policy |>)) with (lift_content (bump_raw nd (c <| rc_policy ::= enforce_policy |>))).
      cbv zeta. rewrite hmarshal_lift. destruct (write_db _ _ _ _) as [fs' []]; simpl; [|reflexivity|reflexivity]. now rewrite hload_lift.
    + simpl. now rewrite hload_lift.
  - rewrite Hs. reflexivity.
Qed.
