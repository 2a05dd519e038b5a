(** Proofs about direct calls on accounts (C78-C86). *)
From Coq Require Import String Ascii ZArith NArith Lia Bool Arith List.
From stdpp Require Import gmap strings.
From RecordUpdate Require Import RecordSet.
From Verif Require Import GoStr GoErr Role Name Email Random SpecValue RoleFacts EmailFacts RandomFacts QrFacts.
From Verif Require Import Types Env Password ApiKey PublicKey Mfa User Json Persist Fs Database System UserFacts DbFacts Inv LoadFacts.
From Verif Require Import SpecDb AccountFacts SpecCrypto SpecAuth Method SpecMethod.
Import ListNotations.
Import RecordSetNotations.
Open Scope string_scope.
#[local] Opaque int64 new_id trim_space new_email new_role.

(** ** One call *)
Lemma add_role_cases nd u s u' : add_role nd u s = inl u' -> exists r, new_role s = inl r /\
  ((In r (u_roles u) /\ u' = u) \/ (~ In r (u_roles u) /\ u' = revise nd (u <| u_roles := (u_roles u ++ [r])%list |>))).
Proof.
  unfold add_role, add_role_list. destruct (new_role s) as [r|]; [|discriminate]. intros H. exists r. split; [reflexivity|].
  destruct existsb eqn:X; injection H as <-.
  - left. split; [|reflexivity]. apply existsb_exists in X as (q & Hq & Q). apply role_eqb_eq in Q. now subst.
  - right. split; [|reflexivity]. intros I. assert (existsb (role_eqb r) (u_roles u) = true) as T; [|congruence].
    apply existsb_exists. exists r. split; [exact I|]. now apply role_eqb_eq.
Qed.
Lemma add_roles_live_frame nd l : forall u, without_part PaRoles (fst (add_roles_live nd u l)) = without_part PaRoles u.
Proof.
  induction l as [|s l IH]; intros u; [reflexivity|]. cbn [add_roles_live]. destruct add_role as [u'|] eqn:A; [|reflexivity].
  rewrite IH. apply add_role_cases in A as (r & _ & [[_ ->]|[_ ->]]); [reflexivity|]. destruct u; reflexivity.
Qed.
Lemma method_frame E nd m u : without_part (part_of m) (fst (call_method E nd m u)) = without_part (part_of m) u.
Proof.
  destruct m; cbn [call_method part_of].
  - unfold add_password. destruct new_password; cbn [or_same fst]; [|reflexivity]. destruct u; reflexivity.
  - unfold add_email. destruct new_email; [|reflexivity]. destruct u as [? ? ? ? ? ? ? ? ? ? ? [|? ?]]; [reflexivity|]. cbn [u_emails]. destruct existsb; reflexivity.
  - destruct add_role as [u'|] eqn:A; [|reflexivity]. apply add_role_cases in A as (r & _ & [[_ ->]|[_ ->]]); [reflexivity|]. destruct u; reflexivity.
  - pose proof (add_roles_live_frame nd l u) as H. destruct add_roles_live; exact H.
  - cbn [fst]. unfold add_name. destruct u as [? ? ? ? ? ? ? [|? ?]]; [reflexivity|]. cbn [u_names]. destruct existsb; reflexivity.
  - unfold add_public_key. destruct new_public_key; [|reflexivity]. destruct existsb; [reflexivity|]. destruct u; reflexivity.
  - unfold delete_public_key. cbv zeta. destruct existsb; [|reflexivity]. destruct u; reflexivity.
  - unfold add_api_key. destruct new_api_key; [|reflexivity]. destruct u; reflexivity.
  - unfold delete_api_key. cbv zeta. destruct existsb; [|reflexivity]. destruct u; reflexivity.
  - unfold add_mfa_token. destruct new_mfa_token as [r' [t|e|]]; [|reflexivity|reflexivity]. cbn [snd]. destruct dup_token; [reflexivity|]. destruct u; reflexivity.
  - unfold delete_mfa_token. cbv zeta. destruct existsb; [|reflexivity]. destruct u; reflexivity.
  - unfold change_password. destruct verify_password; [reflexivity|]. unfold add_password. destruct new_password; [|reflexivity]. destruct u; reflexivity.
  - unfold verify_webauthn. destruct unpack_request; [|reflexivity]. destruct verify_tokens. destruct u; reflexivity.
  - destruct u; reflexivity.
  - destruct u; reflexivity.
  - destruct u; reflexivity.
  - destruct u; reflexivity.
  - destruct u; reflexivity.
Qed.
(** A call that counts changes either does nothing or one revision. *)
Lemma method_counts E nd m u u' res : counts m -> call_method E nd m u = (u', res) ->
  (u' = u /\ (res = MOk -> m <> MRevise)) \/ (res = MOk /\ revised (nd_clock nd) u u').
Proof.
  intros C. destruct m; try destruct C; cbn [call_method].
  - unfold add_password. destruct new_password; intros [=<- <-]; [right|left; split; [reflexivity|discriminate]]. destruct u; repeat split.
  - unfold add_email. destruct new_email; [|intros [=<- <-]; left; split; [reflexivity|discriminate]].
    destruct u as [? ? ? ? ? ? ? ? ? ? ? [|? ?]]; cbn [u_emails]; [intros [=<- <-]; right; repeat split|].
    destruct existsb; intros [=<- <-]; [left; split; [reflexivity|discriminate]|right; repeat split].
  - destruct add_role as [v|] eqn:A; intros [=<- <-]; [|left; split; [reflexivity|discriminate]].
    apply add_role_cases in A as (r & _ & [[_ ->]|[_ ->]]); [left; split; [reflexivity|discriminate]|]. right. destruct u; repeat split.
  - unfold add_public_key. destruct new_public_key; [|intros [=<- <-]; left; split; [reflexivity|discriminate]].
    destruct existsb; intros [=<- <-]; [left; split; [reflexivity|discriminate]|right; destruct u; repeat split].
  - unfold delete_public_key. cbv zeta. destruct existsb; intros [=<- <-]; [right; destruct u; repeat split|left; split; [reflexivity|discriminate]].
  - unfold add_api_key. destruct new_api_key; intros [=<- <-]; [right; destruct u; repeat split|left; split; [reflexivity|discriminate]].
  - unfold delete_api_key. cbv zeta. destruct existsb; intros [=<- <-]; [right; destruct u; repeat split|left; split; [reflexivity|discriminate]].
  - unfold add_mfa_token. destruct new_mfa_token as [r' [t|e|]]; cbn [snd]; [|intros [=<- <-]; left; split; [reflexivity|discriminate]|intros [=<- <-]; left; split; [reflexivity|discriminate]].
    destruct dup_token; intros [=<- <-]; [left; split; [reflexivity|discriminate]|right; destruct u; repeat split].
  - unfold delete_mfa_token. cbv zeta. destruct existsb; intros [=<- <-]; [right; destruct u; repeat split|left; split; [reflexivity|discriminate]].
  - unfold change_password. destruct verify_password; [intros [=<- <-]; left; split; [reflexivity|discriminate]|]. unfold add_password.
    destruct new_password; intros [=<- <-]; [right; destruct u; repeat split|left; split; [reflexivity|discriminate]].
  - intros [=<- <-]. right. destruct u; repeat split.
Qed.
(** Failed calls other than AddRoles and VerifyWebAuthnRequest change nothing. *)
Lemma method_failed E nd m u u' res : call_method E nd m u = (u', res) -> res <> MOk ->
  (forall l, m <> MAddRoles l) -> (forall r, m <> MVerifyWebAuthn r) -> u' = u.
Proof.
  intros H N NR NW. assert (D : counts m \/ ~ counts m) by (destruct m; cbn; tauto). destruct D as [C|C].
  - destruct (method_counts _ _ _ _ _ _ C H) as [[-> _]|[-> _]]; [reflexivity|congruence].
  - destruct m; cbn in C; try tauto; cbn [call_method] in H; try (injection H as <- <-; congruence).
    + now destruct (NR l).
    + now destruct (NW r).
Qed.

(** ** AddRoles *)
Lemma add_roles_live_spec nd l : forall u u' e, add_roles_live nd u l = (u', e) ->
  exists l1 l2 added, l = (l1 ++ l2)%list /\ Forall (fun s => trim_space s <> "") l1 /\
    ((e = None /\ l2 = []) \/ (e = Some (EStd ErrRoleEmpty) /\ exists s l3, l2 = s :: l3 /\ trim_space s = "")) /\
    u_roles u' = (u_roles u ++ added)%list /\ (forall r, In r added <-> ~ In r (u_roles u) /\ exists s, In s l1 /\ new_role s = inl r) /\
    NoDup added /\
    (forall a b, l1 = (a ++ b)%list -> exists x y, added = (x ++ y)%list /\ forall r, In r x <-> ~ In r (u_roles u) /\ exists s, In s a /\ new_role s = inl r) /\
    u_revision u' = fold_left (fun n _ => int64 (n + 1)) added (u_revision u).
Proof.
  induction l as [|s l IH]; intros u u' e; cbn [add_roles_live].
  - intros [=<- <-]. exists [], [], []. rewrite (app_nil_r (u_roles u)). split; [reflexivity|]. split; [constructor|]. split; [left; auto|]. split; [reflexivity|].
    split; [|split; [constructor|split; [|reflexivity]]].
    + intros r. split; [intros []|intros (_ & s & [] & _)].
    + intros a b H. symmetry in H. apply List.app_eq_nil in H as [-> ->]. exists [], []. split; [reflexivity|]. intros r. split; [intros []|intros (_ & s & [] & _)].
  - destruct add_role as [v|e'] eqn:A.
    + intros H. destruct (IH _ _ _ H) as (l1 & l2 & added & -> & F & HE & HR & HA & HN & HO & HV).
      apply add_role_cases in A as (r & Hr & D). assert (Ts : trim_space s <> "") by (intros T; apply new_role_blank in T; congruence).
      destruct D as [[I ->]|[I ->]].
      * assert (M : forall a x, ~ In x (u_roles u) /\ (exists t, In t (s :: a) /\ new_role t = inl x) <-> ~ In x (u_roles u) /\ exists t, In t a /\ new_role t = inl x).
        { intros a x. split; intros (N & t & Ht & T); (split; [exact N|]).
          - destruct Ht as [->|Ht]; [|now exists t]. rewrite Hr in T. injection T as ->. contradiction.
          - exists t. split; [now right|exact T]. }
        exists (s :: l1), l2, added. split; [reflexivity|]. split; [now constructor|]. split; [exact HE|]. split; [exact HR|].
        split; [intros x; rewrite HA, M; reflexivity|]. split; [exact HN|]. split; [|exact HV].
        intros [|s0 a] b Hab.
        -- exists [], added. split; [reflexivity|]. intros x. split; [intros []|intros (_ & t & [] & _)].
        -- injection Hab as <- Hab. destruct (HO a b Hab) as (x & y & -> & Hx). exists x, y. split; [reflexivity|]. intros q. rewrite Hx, M. reflexivity.
      * replace (u_roles (revise nd (u <| u_roles := (u_roles u ++ [r])%list |>))) with (u_roles u ++ [r])%list in * by (destruct u; reflexivity).
        replace (u_revision (revise nd (u <| u_roles := (u_roles u ++ [r])%list |>))) with (int64 (u_revision u + 1)) in HV by (destruct u; reflexivity).
        assert (M : forall a x, ~ In x (u_roles u) /\ (exists t, In t (s :: a) /\ new_role t = inl x) <-> x = r \/ (~ In x (u_roles u ++ [r]) /\ exists t, In t a /\ new_role t = inl x)).
        { intros a x. rewrite in_app_iff. cbn [In]. split.
          - intros (N & t & [->|Ht] & T); [left; congruence|]. destruct (role_eqb r x) eqn:Q; [left; symmetry; now apply role_eqb_eq|].
            right. split; [|now exists t]. intros [K|[K|[]]]; [contradiction|]. subst. assert (role_eqb x x = true) by now apply role_eqb_eq. congruence.
          - intros [->|(N & t & Ht & T)]; [split; [exact I|]; exists s; auto|]. split; [tauto|]. exists t. auto. }
        exists (s :: l1), l2, (r :: added). split; [reflexivity|]. split; [now constructor|]. split; [exact HE|].
        split; [rewrite HR, <- app_assoc; reflexivity|].
        split; [intros x; rewrite M, <- HA; cbn [In]; intuition congruence|].
        split; [constructor; [rewrite elem_of_list_In, HA, in_app_iff; cbn [In]; tauto|exact HN]|]. split; [|exact HV].
        intros [|s0 a] b Hab.
        -- exists [], (r :: added). split; [reflexivity|]. intros x. split; [intros []|intros (_ & t & [] & _)].
        -- injection Hab as <- Hab. destruct (HO a b Hab) as (x & y & -> & Hx). exists (r :: x), y. split; [reflexivity|]. intros q. rewrite M, <- Hx. cbn [In]. intuition congruence.
    + intros [=<- <-]. exists [], (s :: l), []. rewrite (app_nil_r (u_roles u)). unfold add_role in A. destruct (new_role s) as [r|e0] eqn:R.
      { destruct add_role_list; discriminate. }
      injection A as <-. assert (T : trim_space s = "" /\ e0 = EStd ErrRoleEmpty).
      { destruct (string_dec (trim_space s) "") as [T|T]; [pose proof (new_role_blank _ T) as B; rewrite R in B; now injection B as ->|].
        exfalso. destruct (new_role_total s T) as [r X]. congruence. }
      destruct T as [T ->]. split; [reflexivity|]. split; [constructor|]. split; [right; split; [reflexivity|]; now exists s, l|]. split; [reflexivity|].
      split; [|split; [constructor|split; [|reflexivity]]].
      * intros r. split; [intros []|intros (_ & t & [] & _)].
      * intros a b H. symmetry in H. apply List.app_eq_nil in H as [-> ->]. exists [], []. split; [reflexivity|]. intros r. split; [intros []|intros (_ & t & [] & _)].
Qed.

(** ** AddEmailAddress, AddName *)
Lemma add_email_cases nd u s : 
  (forall d, ~ email_grammar s d) /\ (exists e, add_email nd u s = inr e) \/
  (exists e, new_email s = inl e /\ has_exactly u s /\ add_email nd u s = inl u) \/
  (exists e u', new_email s = inl e /\ ~ has_exactly u s /\ add_email nd u s = inl u' /\ u_emails u' = (u_emails u ++ [e])%list /\
     (u_emails u = [] -> u_email u' = Some e) /\ (u_emails u <> [] -> u_email u' = u_email u) /\ revised (nd_clock nd) u u').
Proof.
  unfold add_email. destruct (new_email s) as [e|e] eqn:X.
  - right. assert (A : em_address e = s) by (apply new_email_spec in X as (_ & H & _); exact H).
    unfold has_exactly. destruct (u_emails u) as [|f l] eqn:L.
    + right. exists e. eexists. split; [reflexivity|]. split; [intros (x & [] & _)|]. split; [reflexivity|]. destruct u; cbn in L; subst. split; [reflexivity|]. split; [reflexivity|]. split; [intros N; now destruct N|]. repeat split.
    + rewrite <- L. destruct existsb eqn:B.
      * left. exists e. split; [reflexivity|]. split; [|reflexivity]. apply existsb_exists in B as (x & Hx & Q). apply String.eqb_eq in Q. exists x. split; congruence.
      * right. exists e. eexists. split; [reflexivity|]. split; [|split; [reflexivity|]].
        intros (x & Hx & Q). assert (existsb (fun x => String.eqb (em_address e) (em_address x)) (u_emails u) = true) as T; [|congruence].
        { apply existsb_exists. exists x. split; [exact Hx|]. rewrite A, Q. apply String.eqb_refl. }
        destruct u; cbn in L; subst. split; [reflexivity|]. split; [discriminate|]. split; [reflexivity|]. repeat split.
  - left. split; [|eauto]. apply new_email_err. eauto.
Qed.

Lemma full_name_rendered n s : full_name n = s <-> rendered n s.
Proof.
  unfold full_name, rendered. destruct (String.eqb (nm_first n) "") eqn:F.
  - apply String.eqb_eq in F. rewrite str_nil. split; [auto|]. intros [[_ ->]|[N _]]; congruence.
  - apply String.eqb_neq in F. split; [intros <-; auto|]. intros [[N _]|[_ ->]]; congruence.
Qed.
Lemma add_name_cases nd u n s : rendered n s ->
  (u_names u = [] /\ add_name nd u n = u <| u_name := Some n |> <| u_names := [n] |>) \/
  (u_names u <> [] /\ named u s /\ add_name nd u n = u) \/
  (u_names u <> [] /\ ~ named u s /\ u_names (add_name nd u n) = (u_names u ++ [n])%list /\ u_name (add_name nd u n) = u_name u /\
     revised (nd_clock nd) u (add_name nd u n)).
Proof.
  intros <-%full_name_rendered. unfold add_name, named. destruct (u_names u) as [|f l] eqn:L; [left; auto|]. right. rewrite <- L. destruct existsb eqn:B.
  - left. split; [congruence|]. split; [|reflexivity]. apply existsb_exists in B as (x & Hx & Q). apply String.eqb_eq in Q. exists x. split; [exact Hx|]. now apply full_name_rendered.
  - right. split; [congruence|]. split; [|destruct u; repeat split].
    intros (x & Hx & Q%full_name_rendered). assert (existsb (fun x => String.eqb (full_name n) (full_name x)) (u_names u) = true) as T; [|congruence].
    apply existsb_exists. exists x. split; [exact Hx|]. rewrite Q. apply String.eqb_refl.
Qed.

(** ** The database around the account *)
Lemma inv_get_user E db s i u : Inv E db -> get_user E db s = Some (i, u) <-> resolves_login E db s i u.
Proof.
  intros H. unfold get_user, resolves_login, resolves_address, resolves_username, account, has_username. rewrite has_address_in. unfold same_ci. rewrite <- by_username_iff, <- by_email_iff by assumption.
  rewrite <- (contains_char s "@"). change (String "@" "") with "@". destruct (contains s "@"); intuition (try discriminate; congruence).
Qed.
Lemma inv_validate E db r i u : Inv E db -> validate_identity E db r = inl (i, u) <-> identity_of E db r i u.
Proof.
  intros H. unfold identity_of, resolves_address, resolves_username, account, has_username, same_ci. split.
  - intros (A & j & v & B & C)%validate_identity_inv. apply by_username_iff in A; [|assumption]. apply by_email_iff in B; [|assumption]. rewrite <- has_address_in in B.
    split; [exact A|]. exists j, v. auto.
  - intros (A & j & v & B & C). apply by_username_iff in A; [|assumption]. rewrite has_address_in in B. apply by_email_iff in B; [|assumption].
    unfold validate_identity. rewrite A, B, C, String.eqb_refl. reflexivity.
Qed.
(** Replacing account [i] by one with the same name, id and addresses and some of the keys. *)
Lemma inv_replace E db i u u' :
  Inv E db -> db_users db !! i = Some u -> u_id u' = u_id u -> u_username u' = u_username u -> u_emails u' = u_emails u ->
  u_passwords u' <> [] -> NoDup (map ak_prefix (u_apikeys u')) ->
  (forall k, In k (u_apikeys u') -> exists k0, In k0 (u_apikeys u) /\ ak_prefix k0 = ak_prefix k) ->
  Inv E (set_user db i u').
Proof.
  intros HI Hi Eid Eun Eem Hpw Hnd Hk.
  assert (Hlt : (i < List.length (db_users db))%nat) by (eapply lookup_lt_Some; eauto).
  assert (L : forall j v, <[i := u']> (db_users db) !! j = Some v -> (j = i /\ v = u') \/ (j <> i /\ db_users db !! j = Some v)).
  { intros j v. destruct (decide (j = i)) as [->|N].
    - rewrite list_lookup_insert by assumption. intros [=<-]. auto.
    - rewrite list_lookup_insert_ne by congruence. auto. }
  assert (L' : <[i := u']> (db_users db) !! i = Some u') by (now apply list_lookup_insert).
  assert (Ln : forall j, j <> i -> <[i := u']> (db_users db) !! j = db_users db !! j) by (intros; apply list_lookup_insert_ne; congruence).
  assert (Ea : addrs_of E u' = addrs_of E u) by (unfold addrs_of; now rewrite Eem).
  destruct HI. split; unfold db_users in *; cbn [set_user ref_username ref_email ref_id ref_apikey db_content c_users set] in *; cbn in *.
  - intros s j. rewrite inv_name. split; intros (v & Hv & Hs).
    + destruct (decide (j = i)) as [->|N]; [|rewrite Ln by assumption; eauto]. exists u'. split; [assumption|]. congruence.
    + apply L in Hv as [[-> ->]|[N Hv]]; [|eauto]. exists u. split; congruence.
  - intros s j. rewrite inv_email. split; intros (v & Hv & Hs).
    + destruct (decide (j = i)) as [->|N]; [|rewrite Ln by assumption; eauto]. exists u'. split; [assumption|]. congruence.
    + apply L in Hv as [[-> ->]|[N Hv]]; [|eauto]. exists u. split; congruence.
  - intros j v Hv. apply L in Hv as [[-> ->]|[N Hv]]; [|eauto]. rewrite Ea. eauto.
  - intros s j Hs. apply inv_id_dom in Hs as (v & Hv & Hs).
    destruct (decide (j = i)) as [->|N]; [|rewrite Ln by assumption; eauto]. exists u'. split; congruence.
  - intros j v Hv. apply L in Hv as [[-> ->]|[N Hv]]; [|eauto]. rewrite Eid. eauto.
  - intros j v k Hv K. apply L in Hv as [[-> ->]|[N Hv]]; [|eauto]. destruct (Hk _ K) as (k0 & K0 & <-). eauto.
  - intros s j Hs. destruct (decide (j = i)) as [->|N]; [eauto|]. rewrite Ln by assumption. eauto.
  - intros j v Hv. apply L in Hv as [[-> ->]|[N Hv]]; eauto.
  - intros j v Hv. apply L in Hv as [[-> ->]|[N Hv]]; [|eauto]. rewrite Eid, Eun. destruct (inv_valid _ _ Hi) as (? & ? & ?). auto.
  - assumption.
Qed.
Lemma alter_prefix nd k l : map ak_prefix (alter (ak_disable nd) k l) = map ak_prefix l.
Proof. revert k. induction l as [|x l IH]; intros [|k]; cbn; try reflexivity. f_equal. apply IH. Qed.
Lemma alter_ne {A} (f : A -> A) k l : l <> [] -> alter f k l <> [].
Proof. destruct l, k; cbn; congruence. Qed.
Lemma method_passwords E nd m u : u_passwords u <> [] -> u_passwords (fst (call_method E nd m u)) <> [].
Proof.
  intros N. assert (D : part_of m = PaPasswords \/ part_of m <> PaPasswords) by (destruct m; cbn; (left; reflexivity) || (right; discriminate)). destruct D as [D|D].
  - destruct m; try discriminate; cbn [call_method].
    + unfold add_password. destruct new_password; cbn; [discriminate|exact N].
    + unfold change_password. destruct verify_password; [exact N|]. unfold add_password. destruct new_password; cbn; [discriminate|exact N].
    + cbn [fst]. destruct u. cbn in *. now apply alter_ne.
  - pose proof (f_equal u_passwords (method_frame E nd m u)) as H. destruct (part_of m); try congruence; cbn in H; congruence.
Qed.
Lemma method_keys E nd m u : tame m -> NoDup (map ak_prefix (u_apikeys u)) -> let u' := fst (call_method E nd m u) in
  NoDup (map ak_prefix (u_apikeys u')) /\ forall k, In k (u_apikeys u') -> exists k0, In k0 (u_apikeys u) /\ ak_prefix k0 = ak_prefix k.
Proof.
  intros T N u'. assert (D : part_of m = PaAPIKeys \/ part_of m <> PaAPIKeys) by (destruct m; cbn; (left; reflexivity) || (right; discriminate)). destruct D as [D|D].
  - destruct m; try discriminate; try destruct T; subst u'; cbn [call_method].
    + unfold delete_api_key. cbv zeta. destruct existsb; cbn [fst or_same].
      * change (u_apikeys (revise nd ?x)) with (u_apikeys x). cbn [u_apikeys set]. destruct u; cbn in *. split; [now apply NoDup_map_filter|].
        intros k Hk. apply filter_In in Hk as [Hk _]. eauto.
      * split; [exact N|eauto].
    + cbn [fst]. destruct u; cbn in *. rewrite alter_prefix. split; [exact N|]. intros x Hx. apply (in_map ak_prefix) in Hx. rewrite alter_prefix in Hx.
      apply in_map_iff in Hx as (y & Hy & Iy). eauto.
  - pose proof (f_equal u_apikeys (method_frame E nd m u)) as H. fold u' in H. assert (u_apikeys u' = u_apikeys u) as ->; [|split; [exact N|eauto]].
    destruct (part_of m); try congruence; cbn in H; congruence.
Qed.
Lemma method_identity E nd m u : tame m -> let u' := fst (call_method E nd m u) in
  u_id u' = u_id u /\ u_username u' = u_username u /\ u_emails u' = u_emails u.
Proof.
  intros T u'. pose proof (method_frame E nd m u) as H. fold u' in H. assert (D : part_of m <> PaEmails) by (destruct m; cbn in *; (discriminate || tauto)).
  split; [|split]; [apply (f_equal u_id) in H|apply (f_equal u_username) in H|apply (f_equal u_emails) in H]; destruct (part_of m); try congruence; cbn in H; congruence.
Qed.
Lemma inv_live E nd i m db : tame m -> Inv E db -> Inv E (live E nd i m db).
Proof.
  intros T HI. unfold live. destruct (db_users db !! i) as [u|] eqn:Hi; [|exact HI].
  destruct (method_identity E nd m u T) as (A & B & C). destruct (method_keys E nd m u T (inv_key_nodup _ _ HI _ _ Hi)) as (D & F).
  apply (inv_replace E db i u); auto. apply method_passwords. apply (inv_valid _ _ HI _ _ Hi).
Qed.
Lemma inv_mixed E fs db : mixed E tame fs db -> Inv E db.
Proof.
  induction 1 as [nd fp fs0 fs db O|nd op r fs db M IH _ _|nd i m fs db M IH T|fs fs' db M IH]; auto.
  - now apply inv_open in O.
  - now apply inv_exec.
  - now apply inv_live.
Qed.
Lemma live_account E nd i m db u : account db i u -> account (live E nd i m db) i (fst (call_method E nd m u)).
Proof. unfold account, live. intros H. rewrite H, set_user_users. apply list_lookup_insert. eapply lookup_lt_Some; eauto. Qed.
Lemma live_others E nd i m db j : j <> i -> db_users (live E nd i m db) !! j = db_users db !! j.
Proof. intros N. unfold live. destruct (db_users db !! i) eqn:H; [|reflexivity]. rewrite set_user_users. apply list_lookup_insert_ne. congruence. Qed.
Lemma live_refs E nd i m db : ref_username (live E nd i m db) = ref_username db /\ ref_email (live E nd i m db) = ref_email db /\
  ref_id (live E nd i m db) = ref_id db /\ ref_apikey (live E nd i m db) = ref_apikey db /\ db_path (live E nd i m db) = db_path db.
Proof. unfold live. destruct (db_users db !! i); repeat split. Qed.
