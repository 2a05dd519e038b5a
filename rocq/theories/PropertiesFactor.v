(** Theorems about the second factors returned (C127). *)
From Coq Require Import String Ascii ZArith NArith Lia Bool Arith List.
From stdpp Require Import gmap strings.
From RecordUpdate Require Import RecordSet.
From Verif Require Import GoStr Codec GoErr Random SpecValue Types Env Mfa Fs Database System SpecDb SpecAuth SpecMfa SpecRegister SpecPersist SpecOutage SpecLedger SpecFactor Examples.
From Verif Require Import AccountFacts TokenFacts RegisterFacts FactorFacts PropertiesMfa PropertiesPersist PropertiesLedger.
Import ListNotations.
Import RecordSetNotations.
Open Scope string_scope.

(** C127: the second factors returned are, in order, the tokens that the registrations describe, of those
    not made as disabled and not deleted since; a key kept beside one is that of its parameters. *)
Theorem C127_returned E fs db l nd r e : register_typed E -> hmac_size E -> equipped E fs db l -> In e l -> case_named E e r ->
  exists ts, exec E nd OpGetMfaTokens db fs r = {| o_db := db; o_fs := fs; o_req := r <| rq_payload := PMfaTokens {| b_items := ts; b_size := Z.of_nat (List.length ts) |} |>; o_res := OOk |} /\
    Forall2 (tells E) (active (ca_enrolments e)) ts.
Proof. exact (case_returned E fs db l nd r e). Qed.
Print Assumptions C127_returned.
(** A registration describes one token. *)
Theorem C127_one E x t t' : hmac_size E -> token_of E x t -> token_of E x t' -> t = t'.
Proof.
  intros Hh H H'. assert (G : forall s, token_of E x s -> snd (new_mfa_token E (en_nd x) (en_req x)) = ROk s).
  { intros s [(a & d & R & T)|(q & a & c & cx & cy & R & T)].
    - pose proof (rt_type _ _ _ _ _ R) as Ty. apply totp_iff; [exact Hh|exact Ty|]. exists a, d. split; [exact R|]. now apply totp_of_complete.
    - pose proof (ru_type _ _ _ _ _ _ _ R) as Ty. pose proof (ru_public _ _ _ _ _ _ _ R) as Tq. apply u2f_iff; [exact Ty|]. exists q, a, c, cx, cy. split; [exact R|]. now apply u2f_of_entry. }
  apply G in H, H'. rewrite H in H'. now injection H'.
Qed.
Print Assumptions C127_one.
(** So what is returned depends on the registrations, and the times and draws of their calls, alone, up to
    the keys kept beside the tokens. *)
Definition shown (r : Request) : list MfaToken := match rq_payload r with PMfaTokens b => map (fun t => t <| t_cache := None |>) (b_items b) | _ => [] end.
Theorem C127_determined E fs db fs' db' l nd nd' r e : register_typed E -> hmac_size E -> equipped E fs db l -> equipped E fs' db' l -> In e l -> case_named E e r ->
  shown (o_req (exec E nd OpGetMfaTokens db fs r)) = shown (o_req (exec E nd' OpGetMfaTokens db' fs' r)).
Proof.
  intros RT Hh R R' He N. destruct (C127_returned E fs db l nd r e RT Hh R He N) as (ks & X & F), (C127_returned E fs' db' l nd' r e RT Hh R' He N) as (ks' & X' & F').
  rewrite X, X'. unfold shown. cbn [o_req rq_payload b_items set]. clear - Hh F F'. cbn. revert ks' F'. induction F as [|x k l ks [H _] F IH]; intros ks' F'; inversion F' as [|? k' ? ks0 [H' _] F0]; subst; [reflexivity|].
  cbn [map]. f_equal; [exact (C127_one _ _ _ _ Hh H H')|auto].
Qed.
Print Assumptions C127_determined.
Theorem C127_reachable E fs db l : equipped E fs db l -> reachable E fs db.
Proof. exact (equipped_reachable E fs db l). Qed.
Print Assumptions C127_reachable.

(** One account registers a secret and a key, and a second key as disabled. *)
Definition off_u2f : Request := u2f_req <| rq_mfa; rm_comment := "other" |> <| rq_webauthn; rw_challenge := "y" |> <| rq_mfa; rm_disabled := true |>.
Definition case_calls : list (Nd * Op * Request) := two_calls ++ [(draws 9, OpAddMfaToken, totp_req); (draws 50, OpAddMfaToken, u2f_req); (draws 70, OpAddMfaToken, off_u2f)].
Definition case_end : FS * Database := run toy start case_calls.
Definition phone : Enrolment := {| en_nd := draws 9; en_req := totp_req |}.
Definition stick : Enrolment := {| en_nd := draws 50; en_req := u2f_req |}.
Definition spare : Enrolment := {| en_nd := draws 70; en_req := off_u2f |}.
Definition case_ex : list Case :=
  [{| ca_name := "Jane"; ca_mail := "Jane@Example.com"; ca_enrolments := [phone; stick; spare] |}; {| ca_name := "bob"; ca_mail := "bob@example.com"; ca_enrolments := [] |}].
Lemma case_ex_is : ledger_of (equip toy) start case_calls [] = case_ex.
Proof. vm_compute. reflexivity. Qed.
Lemma case_equipped : equipped toy case_end.1 case_end.2 case_ex.
Proof.
  assert (A : all_return start case_calls = true) by (vm_compute; reflexivity).
  pose proof (run_traced (equip toy) [] case_calls start [] (TrNew toy (equip toy) [] (draws 0) "db.json" ∅ _ _ (or_intror eq_refl) start_open) A) as R.
  rewrite case_ex_is in R. exact R.
Qed.
(** The login caches the key, and the first token is deleted. *)
Definition case_drop : list (Nd * Op * Request) := [(draws 60, OpAuthenticate, login_req); (draws 60, OpDeleteMfaToken, jane <| rq_mfa; rm_id := en_id phone |>)].
Definition case_less : FS * Database := run toy case_end case_drop.
Definition case_after : list Case :=
  [{| ca_name := "Jane"; ca_mail := "Jane@Example.com"; ca_enrolments := [stick; spare] |}; {| ca_name := "bob"; ca_mail := "bob@example.com"; ca_enrolments := [] |}].
Lemma case_after_is : ledger_of (equip toy) case_end case_drop case_ex = case_after.
Proof. vm_compute. reflexivity. Qed.
Lemma case_less_equipped : equipped toy case_less.1 case_less.2 case_after.
Proof.
  assert (A : all_return case_end case_drop = true) by (vm_compute; reflexivity).
  pose proof (run_traced (equip toy) [] case_drop case_end case_ex case_equipped A) as R. rewrite case_after_is in R. exact R.
Qed.
Definition caches_of (r : Request) : list bool := match rq_payload r with PMfaTokens b => map (fun t => match t_cache t with Some _ => true | None => false end) (b_items b) | _ => [] end.
Example C127_ex : register_typed toy /\ hmac_size toy /\ equipped toy case_end.1 case_end.2 case_ex /\ equipped toy case_less.1 case_less.2 case_after /\
  (exists e, In e case_ex /\ case_named toy e totp_req /\ active (ca_enrolments e) = [phone; stick]) /\
  (exists t, token_of toy phone t) /\ (exists t, token_of toy stick t) /\
  caches_of (o_req (exec toy (draws 80) OpGetMfaTokens case_end.2 case_end.1 totp_req)) = [false; false] /\
  caches_of (o_req (exec toy (draws 80) OpGetMfaTokens case_less.2 case_less.1 totp_req)) = [true].
Proof.
  assert (I : exists e, In e case_ex /\ case_named toy e totp_req /\ active (ca_enrolments e) = [phone; stick]).
  { eexists. split; [left; reflexivity|]. split; [unfold case_named, same_ci; repeat split; try (vm_compute; lia); vm_compute; reflexivity|reflexivity]. }
  split; [exact toy_typed|]. split; [exact toy_hmac|]. split; [exact case_equipped|]. split; [exact case_less_equipped|]. split; [exact I|].
  destruct I as (e & He & Ne & Fe). destruct (C127_returned toy _ _ _ (draws 80) totp_req e toy_typed toy_hmac case_equipped He Ne) as (ks & _ & F).
  rewrite Fe in F. inversion F as [|? ? ? ? [T1 _] F1]; subst. inversion F1 as [|? ? ? ? [T2 _] _]; subst. split; [eauto|]. split; [eauto|].
  split; vm_compute; reflexivity.
Qed.
