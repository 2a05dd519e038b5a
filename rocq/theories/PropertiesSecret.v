(** Theorems about what becomes of secrets (C102). *)
From Coq Require Import String Ascii ZArith NArith Lia Bool Arith List.
From stdpp Require Import gmap strings.
From RecordUpdate Require Import RecordSet.
From Verif Require Import GoStr Codec GoErr Random Types Env Mfa User Persist Fs Database System SpecDb SpecAuth SpecMfa SpecSecret Examples.
From Verif Require Import AccountFacts StepFacts SecretFacts PropertiesPassword PropertiesPersist PropertiesMfa.
Import ListNotations.
Import RecordSetNotations.
Open Scope string_scope.

(** C102 *)
(** A password given to AddUser or ChangePassword reaches memory, file and result only through
    bcrypt: with another password of the same hash everything comes out the same. *)
Theorem C102_add_user E nd db fs r q : hash_alike E nd (db_policy db) (ru_password (rq_user r)) q ->
  same_effect (set_password q) (exec E nd OpAddUser db fs r) (exec E nd OpAddUser db fs (set_password q r)).
Proof. exact (add_user_alike E nd db fs r q). Qed.
Print Assumptions C102_add_user.
Theorem C102_change_password E nd db fs r i u q old : reachable E fs db -> identity_of E db r i u ->
  hash_alike E nd (db_policy db) (ru_password (rq_user r)) q -> match_alike E u (ru_old_password (rq_user r)) old ->
  same_effect (fun r => set_old_password old (set_password q r)) (exec E nd OpChangePassword db fs r) (exec E nd OpChangePassword db fs (set_old_password old (set_password q r))).
Proof. exact (change_password_alike E nd db fs r i u q old). Qed.
Print Assumptions C102_change_password.
(** At login a password is only compared with the stored hashes. *)
Theorem C102_login E nd db fs r i u q : reachable E fs db -> resolves_login E db (ru_username (rq_user r)) i u ->
  ru_password (rq_user r) <> "" -> q <> "" -> match_alike E u (ru_password (rq_user r)) q ->
  same_effect (set_password q) (exec E nd OpAuthenticate db fs r) (exec E nd OpAuthenticate db fs (set_password q r)).
Proof. exact (login_alike E nd db fs r i u q). Qed.
Print Assumptions C102_login.
(** Of a generated API key nothing is kept but its first 24 characters and its hash. *)
Theorem C102_api_key E nd db fs r d n s s' : drawn nd s -> drawn (with_secret nd d n) s' ->
  take 24 s' = take 24 s -> e_bcrypt E (nd_salt nd) s 10 = e_bcrypt E (nd_salt nd) s' 10 ->
  let o := exec E nd OpAddAPIKey db fs r in let o' := exec E (with_secret nd d n) OpAddAPIKey db fs r in
  o_db o' = o_db o /\ o_fs o' = o_fs o /\ o_res o' = o_res o /\ exists x, o_req o' = o_req o <| rq_payload := x |>.
Proof. exact (add_key_alike E nd db fs r d n s s'). Qed.
Print Assumptions C102_api_key.
Definition totp_file : string := match o_fs totp_out !! db_path two.2 with Some (File b) => b | _ => "" end.
Definition totp_at : nat := match String.index 0 """secret"": ""sec""" totp_file with Some n => n | None => 0%nat end.
(** The same does not hold for one-time-password secrets: they stand in the file as they are. *)
Theorem C102_totp_refuted : exists E nd db fs r b before after, reachable E fs db /\ o_res (exec E nd OpAddMfaToken db fs r) = OOk /\
  o_fs (exec E nd OpAddMfaToken db fs r) !! db_path db = Some (File b) /\
  rm_secret (rq_mfa r) <> "" /\ b = before ++ """secret"": """ ++ rm_secret (rq_mfa r) ++ """" ++ after.
Proof.
  exists toy, (draws 9), two.2, two.1, totp_req, totp_file, (substring 0 totp_at totp_file), (substring (totp_at + 15) (String.length totp_file) totp_file).
  split; [exact two_reachable|]. split; [exact totp_ok|]. split; [vm_compute; reflexivity|]. split; [discriminate|]. vm_compute. reflexivity.
Qed.
Print Assumptions C102_totp_refuted.
(** Passwords of 80 characters that differ in the last only, which bcrypt does not read; padding; a
    longer draw for the API key that begins with the shorter one. *)
Definition long_pw (c : ascii) : string := sol (repeat "a"%char 79) ++ String c "".
Definition long_req : Request := signup "carol" "carol@example.com" (long_pw "1").
Definition pad_req : Request := change "Jane" "jane@example.com" "secret-pw-1" "secret-pw-3".
Definition api_req : Request := jane <| rq_key; rk_usage := "api" |> <| rq_key; rk_comment := "ci" |>.
Definition secret_of (nd : Nd) : string := match random_range 72 96 (nd_len nd) (nd_secret nd) with Some s => s | None => "" end.
Definition jane_of : User := match db_users two.2 with u :: _ => u | [] => new_user (draws 0) "" end.
Example C102_ex :
  hash_alike toy (draws 7) (db_policy two.2) (ru_password (rq_user long_req)) (long_pw "2") /\ long_pw "1" <> long_pw "2" /\
  o_res (exec toy (draws 7) OpAddUser two.2 two.1 long_req) = OOk /\
  identity_of toy two.2 pad_req 0 jane_of /\ hash_alike toy (draws 7) (db_policy two.2) "secret-pw-3" " secret-pw-3" /\
  o_res (exec toy (draws 7) OpChangePassword two.2 two.1 pad_req) = OOk /\
  resolves_login toy two.2 "jane" 0 jane_of /\ match_alike toy jane_of "guess-1" "guess-2" /\
  drawn (draws 9) (secret_of (draws 9)) /\ drawn (with_secret (draws 9) (nd_secret (draws 9)) 4) (secret_of (with_secret (draws 9) (nd_secret (draws 9)) 4)) /\
  secret_of (with_secret (draws 9) (nd_secret (draws 9)) 4) <> secret_of (draws 9) /\
  take 24 (secret_of (with_secret (draws 9) (nd_secret (draws 9)) 4)) = take 24 (secret_of (draws 9)) /\
  e_bcrypt toy "" (secret_of (draws 9)) 10 = e_bcrypt toy "" (secret_of (with_secret (draws 9) (nd_secret (draws 9)) 4)) 10 /\
  o_res (exec toy (draws 9) OpAddAPIKey two.2 two.1 api_req) = OOk.
Proof.
  split; [constructor; [|split; vm_compute; discriminate|vm_compute; reflexivity]; vm_compute; split; intros _; split; discriminate|].
  split; [discriminate|]. split; [vm_compute; reflexivity|].
  split; [apply (validate_iff _ _ _ _ _ _ two_reachable); vm_compute; reflexivity|].
  split; [constructor; [|split; vm_compute; discriminate|vm_compute; reflexivity]; vm_compute; split; intros _; split; discriminate|].
  split; [vm_compute; reflexivity|]. split; [apply (get_user_resolves _ _ _ _ _ _ two_reachable); vm_compute; reflexivity|].
  split; [intros x; vm_compute; intros [<-|[]]; reflexivity|].
  split; [vm_compute; reflexivity|]. split; [vm_compute; reflexivity|]. split; [vm_compute; discriminate|]. split; [vm_compute; reflexivity|].
  split; [vm_compute; reflexivity|]. vm_compute. reflexivity.
Qed.
