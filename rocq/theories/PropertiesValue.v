(** Value types: roles, names, email addresses, random strings, identifiers, QR codes,
    errors, credit cards (C63-C70, C72, C74). *)
From Coq Require Import String Ascii ZArith NArith Lia Bool Arith List.
From Verif Require Import GoStr Utf8 Codec GoErr Role Name Email Random CreditCard Qr SpecValue RoleFacts EmailFacts RandomFacts QrFacts.
Import ListNotations.
Open Scope string_scope.

(** C63 *)
Theorem C63_role_parts s r :
  trim_space s <> "" ->
  (new_role s = inl r <->
   (without "/" (trim_space s) /\ ro_org r = "" /\ ro_name r = trim_space s) \/
   (without "/" (ro_org r) /\ trim_space s = ro_org r ++ "/" ++ ro_name r)).
Proof. exact (new_role_spec s r). Qed.
Print Assumptions C63_role_parts.
Theorem C63_role_blank s : trim_space s = "" -> new_role s = inr (EStd ErrRoleEmpty).
Proof. exact (new_role_blank s). Qed.
Print Assumptions C63_role_blank.
Theorem C63_role_print s r :
  new_role s = inl r ->
  trim_space s = (if has_prefix (trim_space s) "/" then "/" ++ role_string r else role_string r).
Proof. exact (role_print s r). Qed.
Print Assumptions C63_role_print.
(** Printing and parsing again does not always give the role back. *)
Theorem C63_role_reparse_refuted : exists s r, new_role s = inl r /\ new_role (role_string r) <> inl r.
Proof. exact role_reparse_refuted. Qed.
Print Assumptions C63_role_reparse_refuted.
Example C63_ex : new_role "  corp/net/admin " = inl {| ro_name := "net/admin"; ro_org := "corp" |}.
Proof. reflexivity. Qed.

(** C64 *)
Theorem C64_has_role rs s : has_role rs s = true <-> exists r, new_role s = inl r /\ In r rs.
Proof. exact (has_role_spec rs s). Qed.
Print Assumptions C64_has_role.
Theorem C64_add_role_members rs s r : In r (roles_after rs s) <-> In r rs \/ new_role s = inl r.
Proof. exact (roles_after_in rs s r). Qed.
Print Assumptions C64_add_role_members.
Theorem C64_add_role_nodup rs s : NoDup rs -> NoDup (roles_after rs s).
Proof. exact (roles_after_nodup rs s). Qed.
Print Assumptions C64_add_role_nodup.
Theorem C64_add_role_idempotent rs s : roles_after (roles_after rs s) s = roles_after rs s.
Proof. exact (roles_after_idem rs s). Qed.
Print Assumptions C64_add_role_idempotent.
Example C64_ex : roles_after (roles_after [] "corp/admin") "corp/viewer" =
  [{| ro_name := "admin"; ro_org := "corp" |}; {| ro_name := "viewer"; ro_org := "corp" |}].
Proof. reflexivity. Qed.

(** C65 *)
Theorem C65_both_orders f l :
  trimmed f -> trimmed l -> without "," f -> without "," l -> without " " f -> without " " l ->
  parse_name (f ++ " " ++ l) = inl (mk_name l f) /\ parse_name (l ++ ", " ++ f) = inl (mk_name l f).
Proof. exact (parse_name_both f l). Qed.
Print Assumptions C65_both_orders.
Theorem C65_accepts s : (exists n, parse_name s = inl n) <->
  (exists a b, without "," a /\ without "," b /\ s = a ++ String "," b) \/
  (exists a b, without " " a /\ without " " b /\ s = a ++ String " " b).
Proof. exact (parse_name_iff s). Qed.
Print Assumptions C65_accepts.
Theorem C65_print_parse s a b n :
  s = a ++ String "," b -> without "," a -> without "," b ->
  parse_name s = inl n -> nm_first n <> "" -> parse_name (full_name n) = inl n.
Proof. exact (parse_print_name s a b n). Qed.
Print Assumptions C65_print_parse.
(** Without the restriction to the comma form and a non-empty first part it fails. *)
Theorem C65_print_parse_refuted : exists s n, parse_name s = inl n /\ parse_name (full_name n) <> inl n.
Proof. exact parse_print_name_refuted. Qed.
Print Assumptions C65_print_parse_refuted.
Example C65_ex : trimmed "Ana" /\ without "," "Ana" /\ without " " "Ana" /\
  parse_name "Smith, Ana" = inl (mk_name "Smith" "Ana") /\ full_name (mk_name "Smith" "Ana") = "Smith, Ana".
Proof.
  split; [now apply trimmedb_spec|]. split; [cbv; intuition discriminate|]. split; [cbv; intuition discriminate|].
  split; reflexivity.
Qed.

(** C66 *)
Theorem C66_email s e :
  new_email s = inl e <-> email_grammar s (em_domain e) /\ em_address e = s /\ em_confirmed e = false.
Proof. exact (new_email_spec s e). Qed.
Print Assumptions C66_email.
Theorem C66_email_rejected s : (exists e, new_email s = inr e) <-> forall d, ~ email_grammar s d.
Proof. exact (new_email_err s). Qed.
Print Assumptions C66_email_rejected.
Example C66_ex : new_email "jane.o'doe+x@mail.contoso.com" =
  inl {| em_address := "jane.o'doe+x@mail.contoso.com"; em_confirmed := false; em_domain := "mail.contoso.com" |}
  /\ new_email "jane@-contoso.com" = inr (EStd ErrEmailAddressInvalid).
Proof. split; vm_compute; reflexivity. Qed.

(** C67 *)
Theorem C67_random_string i d :
  String.length (random_string i d) = Z.to_nat (if (i <? 1)%Z then 40 else i)%Z /\ alnum_string (random_string i d).
Proof. exact (random_string_spec i d). Qed.
Print Assumptions C67_random_string.
Theorem C67_random_range a b ld d :
  (0 <= a)%Z -> (0 <= b)%Z -> a <> b ->
  exists s, random_range a b ld d = Some s /\ alnum_string s /\ (Z.min a b <= zlen s < Z.max a b)%Z.
Proof. exact (random_range_spec a b ld d). Qed.
Print Assumptions C67_random_range.
(** Equal bounds panic, whatever the random source. *)
Theorem C67_random_range_equal_panics a ld d : random_range a a ld d = None.
Proof. exact (random_range_panic a ld d). Qed.
Print Assumptions C67_random_range_equal_panics.
(** uuid.go's NewRandomString: 32 characters when 0 is asked for, none when a negative length is. *)
Theorem C67_new_random_string n d :
  String.length (new_random_string n d) = Z.to_nat (if (n =? 0)%Z then 32 else n)%Z /\
  Forall (fun a => is_alnum a = true /\ is_upper a = false) (los (new_random_string n d)).
Proof. exact (new_random_string_spec n d). Qed.
Print Assumptions C67_new_random_string.
(** No string over the alphabet is excluded. *)
Theorem C67_random_onto cs s : Forall (fun a => In a (los cs)) (los s) -> exists d, gen cs (String.length s) d = s.
Proof. exact (gen_onto cs s). Qed.
Print Assumptions C67_random_onto.
Example C67_ex : random_range 72 96 5 (fun i => N.of_nat i) <> None /\ random_string 5 (fun i => N.of_nat i) = "abcde" /\
  new_random_string 0 (fun i => N.of_nat i) = "abcdefghijklmnopqrstuvwxyz012345".
Proof. split; [discriminate|]. split; reflexivity. Qed.

(** C68 *)
Theorem C68_uuid rnd : canonical_v4 (new_id rnd).
Proof. exact (new_id_canonical rnd). Qed.
Print Assumptions C68_uuid.
Theorem C68_uuid_length rnd : String.length (new_id rnd) = 36%nat.
Proof. exact (new_id_length rnd). Qed.
Print Assumptions C68_uuid_length.
Theorem C68_uuid_lower lr rnd : to_lower lr (new_id rnd) = new_id rnd.
Proof. exact (new_id_lower lr rnd). Qed.
Print Assumptions C68_uuid_lower.
Example C68_ex : new_id (fun i => ascii_of_nat (i * 17)) = "00112233-4455-4677-8899-aabbccddeeff".
Proof. vm_compute. reflexivity. Qed.

(** C69 *)
Theorem C69_qr_uri low c c' :
  qr_build low c = (c', None) ->
  (exists o, read_uri (qr_get c') = Some o /\ uri_says c' o) /\ b64_decode (qr_get_encoded c') = Some (qr_get c').
Proof. exact (qr_roundtrip low c c'). Qed.
Print Assumptions C69_qr_uri.
Definition code_ex : Code :=
  {| qr_type := "totp"; qr_secret := "secret&x=1"; qr_algorithm := "SHA1"; qr_label := "a/b?c&d=e f"; qr_issuer := "A&B";
     qr_period := 0; qr_digits := 0; qr_counter := 0; qr_text := ""; qr_encoded := "" |}.
Example C69_ex : let c := fst (qr_build (to_lower (fun r => r)) code_ex) in
  snd (qr_build (to_lower (fun r => r)) code_ex) = None /\ b64_decode (qr_get_encoded c) = Some (qr_get c) /\
  exists o, read_uri (qr_get c) = Some o /\ uri_says c o.
Proof.
  cbv zeta. destruct (qr_build (to_lower (fun r => r)) code_ex) as [c e] eqn:Q. cbn [fst snd].
  assert (e = None) as -> by (apply (f_equal snd) in Q; vm_compute in Q; congruence).
  destruct (C69_qr_uri _ _ _ Q) as [U B]. split; [reflexivity|]. split; [exact B|exact U].
Qed.

(** C70 *)
Theorem C70_qr_valid low c : (exists c', qr_build low c = (c', None)) <-> valid_code low c.
Proof. exact (qr_build_ok_iff low c). Qed.
Print Assumptions C70_qr_valid.
Theorem C70_qr_fields low c c' :
  qr_build low c = (c', None) -> built low c c' /\ qr_text c' = qr_uri c' /\ qr_encoded c' = b64_encode (qr_text c').
Proof. exact (qr_build_fields low c c'). Qed.
Print Assumptions C70_qr_fields.
Example C70_ex : valid_code (to_lower (fun r => r)) code_ex /\
  qr_get (fst (qr_build (to_lower (fun r => r)) code_ex)) =
  "otpauth://totp/a%2Fb%3Fc%26d%3De+f?secret=ONSWG4TFOQTHQPJR&issuer=A%26B&algorithm=sha1&digits=6&period=30".
Proof.
  split; [|vm_compute; reflexivity]. apply C70_qr_valid. eexists. vm_compute. reflexivity.
Qed.

(** C72 *)
Theorem C72_with_args_nil t args : with_args t args = None <-> In ANil args /\ forall e, ~ In (AErr e) args.
Proof. exact (with_args_nil t args). Qed.
Print Assumptions C72_with_args_nil.
Theorem C72_with_args_is t args e t' : with_args t args = Some e -> (errors_is e t' = true <-> t' = t).
Proof. exact (with_args_is t args e t'). Qed.
Print Assumptions C72_with_args_is.
(** An error matches a standard error only if it is that error or was made from it; what its arguments match does not count. *)
Theorem C72_errors_is e t : errors_is e t = true <-> e = EStd t \/ exists args, e = EWith t args.
Proof. exact (errors_is_spec e t). Qed.
Print Assumptions C72_errors_is.
Example C72_ex : with_args ErrAddUser [AStr "x"; AErr (EStd ErrDatabaseCommit)] = Some (EWith ErrAddUser [AStr "x"; AErr (EStd ErrDatabaseCommit)])
  /\ errors_is (EWith ErrAddUser [AErr (EStd ErrDatabaseCommit)]) ErrDatabaseCommit = false.
Proof. split; reflexivity. Qed.

(** C74 *)
Theorem C74_association {R} (cc : Card R) s cc' :
  add_association cc s = (cc', None) <->
  In s supported_associations /\
  exists a, cc' = {| cc_issuer := cc_issuer cc; cc_assoc := Some a; cc_rest := cc_rest cc |} /\ as_name a = s /\ In a associations.
Proof. exact (add_association_ok cc s cc'). Qed.
Print Assumptions C74_association.
Theorem C74_association_complete {R} (cc : Card R) s : In s supported_associations -> exists cc', add_association cc s = (cc', None).
Proof. exact (add_association_complete cc s). Qed.
Print Assumptions C74_association_complete.
Theorem C74_association_err {R} (cc cc' : Card R) s e : add_association cc s = (cc', Some e) -> cc' = cc.
Proof. exact (add_association_err cc cc' s e). Qed.
Print Assumptions C74_association_err.
Theorem C74_issuer {R} low (cc : Card R) s : add_issuer issuers low cc s = (cc, Some (EWith ErrCreditCardUnsupportedIssuer [AStr s])).
Proof. exact (add_issuer_none low cc s). Qed.
Print Assumptions C74_issuer.
Example C74_ex : snd (add_association {| cc_issuer := None; cc_assoc := None; cc_rest := tt |} "Visa") = None
  /\ snd (add_association {| cc_issuer := None; cc_assoc := None; cc_rest := tt |} "visa") <> None.
Proof. split; [reflexivity|discriminate]. Qed.
