(** Opening the file a database wrote gives that database back. *)
From Coq Require Import String Ascii ZArith NArith Lia Bool Arith List.
From Coq Require Import ZifyBool ZifyNat ZifyN.
From stdpp Require Import gmap strings.
From RecordUpdate Require Import RecordSet.
From Verif Require Import GoStr Utf8 Codec GoErr Role Name Email Random SpecValue RoleFacts EmailFacts RandomFacts.
From Verif Require Import Types Env Password ApiKey PublicKey Mfa User Json GoTime Persist Fs Database System UserFacts DbFacts Inv LoadFacts.
From Verif Require Import SpecDb AccountFacts StepFacts SpecPersist PersistFacts StoredFacts.
Import ListNotations.
Import RecordSetNotations.
Open Scope string_scope.
#[local] Opaque int64 new_id trim_space new_email new_role.

(** ** Loading accounts that do not clash *)
Lemma load_emails_complete E i es : forall m, NoDup (map (fun e => lower E (em_address e)) es) ->
  Forall (fun a => m !! a = None) (map (fun e => lower E (em_address e)) es) -> exists m', load_emails E i (map Some es) m = ROk (es, m').
Proof.
  induction es as [|e es IH]; intros m N F; cbn [map load_emails] in *; [eauto|]. cbv zeta.
  apply NoDup_cons in N as [N1 N2]. inversion F as [|? ? F1 F2]; subst. rewrite F1.
  destruct (IH (<[lower E (em_address e) := i]> m) N2) as [m' ->]; [|eauto].
  rewrite List.Forall_forall in *. intros a Ha. rewrite lookup_insert_ne; [auto|]. intros <-. apply N1. now apply elem_of_list_In.
Qed.
Lemma load_keys_complete i ks : forall m, NoDup (map ak_prefix ks) -> Forall (fun a => m !! a = None) (map ak_prefix ks) ->
  exists m', load_keys i (map Some ks) m = ROk (ks, m').
Proof.
  induction ks as [|e es IH]; intros m N F; cbn [map load_keys] in *; [eauto|].
  apply NoDup_cons in N as [N1 N2]. inversion F as [|? ? F1 F2]; subst. rewrite F1.
  destruct (IH (<[ak_prefix e := i]> m) N2) as [m' ->]; [|eauto].
  rewrite List.Forall_forall in *. intros a Ha. rewrite lookup_insert_ne; [auto|]. intros <-. apply N1. now apply elem_of_list_In.
Qed.
Lemma load_passwords_complete ps : Forall (fun p => pw_algorithm p <> "") ps -> load_passwords (map Some ps) = Some ps.
Proof.
  intros F. apply load_passwords_ok. exists ps. split; [reflexivity|]. induction F as [|p ps H _ IH]; [reflexivity|]. cbn [map]. f_equal; [|assumption].
  unfold fix_algo. now apply String.eqb_neq in H as ->.
Qed.
Record loadable (E : Env) (u : User) : Prop := {
  lo_id : String.length (u_id u) = 36%nat; lo_name : u_username u <> ""; lo_pw : u_passwords u <> [];
  lo_algo : Forall (fun p => pw_algorithm p <> "") (u_passwords u); lo_emails : NoDup (addrs_of E u); lo_keys : NoDup (map ak_prefix (u_apikeys u)) }.
Record apart (E : Env) (u v : User) : Prop := {
  ap_name : lower E (u_username u) <> lower E (u_username v); ap_id : u_id u <> u_id v;
  ap_email : forall a, In a (addrs_of E u) -> ~ In a (addrs_of E v);
  ap_key : forall a, In a (map ak_prefix (u_apikeys u)) -> ~ In a (map ak_prefix (u_apikeys v)) }.
Lemma load_user_complete E db u : loadable E u ->
  ref_username db !! lower E (u_username u) = None -> ref_id db !! u_id u = None ->
  Forall (fun a => ref_email db !! a = None) (addrs_of E u) -> Forall (fun a => ref_apikey db !! a = None) (map ak_prefix (u_apikeys u)) ->
  exists db', load_user E db (to_raw_user u) = ROk db' /\ db_content db' = db_content db <| c_users ::= fun l => (l ++ [u])%list |> /\ db_path db' = db_path db.
Proof.
  intros L Hn Hi He Hk. unfold load_user. cbv zeta.
  assert (V : raw_valid (to_raw_user u) = None).
  { apply raw_valid_None. split; [exact (lo_id _ _ L)|]. split; [exact (lo_name _ _ L)|]. cbn [raw_passwords to_raw_user]. pose proof (lo_pw _ _ L). now destruct (u_passwords u). }
  rewrite V. change (u_username (raw_user (to_raw_user u))) with (u_username u). rewrite Hn.
  change (u_id (raw_user (to_raw_user u))) with (u_id u). rewrite Hi.
  cbn [raw_emails raw_passwords raw_keys to_raw_user].
  destruct (load_emails_complete E (List.length (db_users db)) (u_emails u) (ref_email db) (lo_emails _ _ L) He) as [me ->].
  rewrite load_passwords_complete by exact (lo_algo _ _ L).
  destruct (load_keys_complete (List.length (db_users db)) (u_apikeys u) (ref_apikey db) (lo_keys _ _ L) Hk) as [mk ->].
  eexists. split; [reflexivity|]. cbn [db_content db_path]. split; [|reflexivity].
  destruct u. reflexivity.
Qed.
Lemma load_users_complete E us : forall db, Inv E db -> ids_unique db -> keys_exact db -> Forall (loadable E) us ->
  (forall i j u v, (db_users db ++ us)%list !! i = Some u -> (db_users db ++ us)%list !! j = Some v -> (i < j)%nat -> apart E u v) ->
  exists db', load_users E db (map (fun u => Some (to_raw_user u)) us) = Loaded db' /\
    db_content db' = db_content db <| c_users ::= fun l => (l ++ us)%list |> /\ db_path db' = db_path db.
Proof.
  induction us as [|u us IH]; intros db HI HU HK FL FA; cbn [map load_users].
  - exists db. repeat split. destruct db as [[]]. cbn. unfold set. cbn. now rewrite app_nil_r.
  - inversion FL as [|? ? L1 L2]; subst.
    assert (HA : forall i v, db_users db !! i = Some v -> apart E v u).
    { intros i v Hv. apply (FA i (List.length (db_users db))).
      - now apply lookup_app_l_Some.
      - now apply list_lookup_middle.
      - now apply lookup_lt_Some in Hv. }
    destruct (load_user_complete E db u L1) as (db1 & E1 & C1 & P1).
    + destruct (ref_username db !! lower E (u_username u)) as [i|] eqn:R; [|reflexivity]. exfalso. apply (inv_name _ _ HI) in R as (v & Hv & Ev).
      exact (ap_name _ _ _ (HA _ _ Hv) Ev).
    + destruct (ref_id db !! u_id u) as [i|] eqn:R; [|reflexivity]. exfalso. apply (inv_id_dom _ _ HI) in R as (v & Hv & Ev).
      exact (ap_id _ _ _ (HA _ _ Hv) Ev).
    + apply List.Forall_forall. intros a Ha. destruct (ref_email db !! a) as [i|] eqn:R; [|reflexivity]. exfalso. apply (inv_email _ _ HI) in R as (v & Hv & Ev).
      exact (ap_email _ _ _ (HA _ _ Hv) a Ev Ha).
    + apply List.Forall_forall. intros a Ha. destruct (ref_apikey db !! a) as [i|] eqn:R; [|reflexivity]. exfalso. apply HK in R as (v & k & Hv & Hkv & Ev).
      refine (ap_key _ _ _ (HA _ _ Hv) a _ Ha). apply in_map_iff. eauto.
    + rewrite E1. destruct (inv_load_user _ _ _ _ HI HU HK E1) as (HI1 & HU1 & HK1).
      assert (U1 : db_users db1 = (db_users db ++ [u])%list) by (unfold db_users; rewrite C1; reflexivity).
      destruct (IH db1 HI1 HU1 HK1 L2) as (db2 & E2 & C2 & P2).
      * intros i j x y. rewrite U1, <- app_assoc. apply FA.
      * exists db2. split; [exact E2|]. split; [|congruence]. rewrite C2, C1. destruct db as [[]]. unfold set. cbn. now rewrite <- app_assoc.
Qed.

(** ** Cleaned accounts *)
Lemma clean_addrs E u : addrs_of E (clean_user u) = addrs_of E u.
Proof.
  unfold addrs_of. cbn [clean_user u_emails]. rewrite map_map. apply map_ext. intros e. cbn. apply lower_sanitize.
Qed.
Lemma map_sanitize_id {A} (f : A -> string) l : Forall (fun x => valid_utf8 (f x) = true) l -> map (fun x => sanitize (f x)) l = map f l.
Proof. intros H. induction H as [|x l Hx _ IH]; cbn [map]; [reflexivity|]. rewrite IH. now rewrite sanitize_valid. Qed.
Lemma clean_keys u : stored u -> map ak_prefix (u_apikeys (clean_user u)) = map ak_prefix (u_apikeys u).
Proof. intros (_ & _ & K & _). cbn [clean_user u_apikeys]. rewrite map_map. cbn. now apply map_sanitize_id. Qed.
Lemma clean_id u : stored u -> u_id (clean_user u) = u_id u.
Proof. intros (_ & V & _). cbn. now apply sanitize_valid. Qed.
Lemma sanitize_empty s : sanitize s = "" -> s = "".
Proof.
  intros H. unfold sanitize in H. assert (sanitize_l (los s) = []) as H0 by (apply sol_inj; exact H). unfold sanitize_l in H0.
  destruct s as [|a s]; [reflexivity|exfalso]. pose proof (chunks_encoded (los (String a s))) as C. pose proof (chunks_bytes (los (String a s))) as B.
  destruct (chunks (los (String a s))) as [|c cs]; [discriminate|]. cbn [flat_map] in H0. apply app_eq_nil in H0 as [H0 _].
  inversion C as [|? ? C1 _]; subst. destruct c; cbn [chunk_fix] in H0; [|discriminate]. exact (encoded_ne _ _ C1 H0).
Qed.
Lemma clean_loadable E db i u : Inv E db -> account db i u -> stored u -> loadable E (clean_user u).
Proof.
  intros HI Hu S. destruct (inv_valid _ _ HI _ _ Hu) as (V1 & V2 & V3). constructor.
  - now rewrite clean_id.
  - cbn. intros H. now apply V2, sanitize_empty.
  - cbn. now destruct (u_passwords u).
  - cbn. destruct S as (_ & _ & _ & S). apply List.Forall_forall. intros p Hp. apply in_map_iff in Hp as (q & <- & Hq). cbn. rewrite List.Forall_forall in S.
    intros H. apply sanitize_empty in H. exact (S _ Hq H).
  - rewrite clean_addrs. exact (inv_email_nodup _ _ HI _ _ Hu).
  - rewrite clean_keys by assumption. exact (inv_key_nodup _ _ HI _ _ Hu).
Qed.
Lemma clean_apart E db i j u v : Inv E db -> ids_unique db -> account db i u -> account db j v -> stored u -> stored v -> i <> j ->
  apart E (clean_user u) (clean_user v).
Proof.
  intros HI HU Hu Hv Su Sv N. constructor.
  - cbn. rewrite !lower_sanitize. intros H. apply N. assert (A : ref_username db !! lower E (u_username u) = Some i) by (apply (inv_name _ _ HI); eauto).
    assert (B : ref_username db !! lower E (u_username u) = Some j) by (rewrite H; apply (inv_name _ _ HI); eauto). congruence.
  - rewrite !clean_id by assumption. intros H. apply N. eapply HU; eauto.
  - rewrite !clean_addrs. intros a Ha Hb. apply N. assert (A : ref_email db !! a = Some i) by (apply (inv_email _ _ HI); eauto).
    assert (B : ref_email db !! a = Some j) by (apply (inv_email _ _ HI); eauto). congruence.
  - rewrite !clean_keys by assumption. intros a Ha Hb. apply in_map_iff in Ha as (k & <- & Hk). apply in_map_iff in Hb as (l & Hl & Hb).
    apply N. pose proof (inv_key _ _ HI _ _ _ Hu Hk). pose proof (inv_key _ _ HI _ _ _ Hv Hb) as B. rewrite Hl in B. congruence.
Qed.

(** ** Reopening *)
Definition has_version (db : Database) : Prop := c_version (db_content db) = app_version.
Lemma load_users_version E l : forall db db', load_users E db l = Loaded db' -> c_version (db_content db') = c_version (db_content db).
Proof.
  induction l as [|[r|] l IH]; intros db db'; cbn [load_users]; [now intros [=<-]| |discriminate]. destruct load_user as [db1| |] eqn:L; try discriminate.
  intros H. rewrite (IH _ _ H). apply load_user_ok in L as (es & ps & ks & _ & _ & _ & -> & _). reflexivity.
Qed.
Lemma open_version E nd fp fs fs' db : new_database E nd fp fs = (fs', Loaded db) -> has_version db.
Proof.
  unfold new_database. destruct nd_stat_err; [discriminate|].
  destruct (if String.eqb fp "" then None else fs !! fp) as [[b|]|].
  - destruct read_file as [b'|]; [|discriminate]. unfold load_bytes. destruct unmarshal as [c| |] eqn:U; try discriminate.
    destruct policy_changed eqn:P.
    + cbv zeta. destruct write_db as [fs2 []]; try discriminate. intros [= <- H]. now apply load_users_version in H.
    + intros [= <- H]. now apply load_users_version in H.
  - discriminate.
  - destruct nd_mkdir_err; [discriminate|]. cbv zeta. destruct write_db as [fs2 []]; try discriminate. now intros [= <- <-].
Qed.
Lemma exec_version E nd op db fs r : c_version (db_content (o_db (exec E nd op db fs r))) = c_version (db_content db).
Proof.
  destruct (exec_shape E nd op db fs r) as [_ R _ _|db1 res Eff C _]; [now destruct R|].
  apply commit_to_inv in C as [-> _]. now destruct Eff.
Qed.
Lemma version_reachable E P fs db : reachable_by E P fs db -> has_version db.
Proof.
  intros (fs0 & S).
  assert (G : forall w w', steps E P w w' -> match w_mem w with Down => True | Up d | Stuck d => has_version d end -> match w_mem w' with Down => True | Up d | Stuck d => has_version d end).
  { clear. intros w w' S. induction S as [w|w1 ev w2 w3 S IH Hev St]; [auto|]. intros H. specialize (IH H). destruct St; cbn in *; auto.
    - destruct res; cbn; auto. now apply open_version in H0.
    - unfold after_call, has_version in *. pose proof (exec_version E nd op db fs r). destruct o_res; cbn; exact I || congruence. }
  exact (G _ _ S I).
Qed.
Lemma policy_typed_content E P fs db : register_typed E -> reachable_by E P fs db -> content_typed (db_content db).
Proof.
  intros RT HR. destruct (stored_reachable E P fs db RT HR) as (S1 & S2 & S3). split; [exact S1|]. split; [exact S2|].
  apply List.Forall_forall. intros u Hu. apply elem_of_list_In, elem_of_list_lookup in Hu as [i Hi]. exact (proj1 (S3 i u Hi)).
Qed.
Lemma stored_content db : all_stored db -> content_typed (db_content db).
Proof.
  intros (S1 & S2 & S3). split; [exact S1|]. split; [exact S2|].
  apply List.Forall_forall. intros u Hu. apply elem_of_list_In, elem_of_list_lookup in Hu as [i Hi]. exact (proj1 (S3 i u Hi)).
Qed.
Lemma reload_state E nd fp fs db s : Inv E db -> all_stored db -> has_version db -> ids_unique db -> marshal (db_content db) = Some s ->
  exists db', load_bytes E nd fp fs s = (fs, Loaded db') /\ db_content db' = clean_content (db_content db) /\ db_path db' = fp.
Proof.
  intros HI HS V HU M. unfold load_bytes. rewrite (unmarshal_marshal _ _ (stored_content _ HS) M). destruct HS as (S1 & S2 & S3).
  change (rc_policy (to_raw (clean_content (db_content db)))) with (db_policy db). rewrite (inv_policy _ _ HI).
  destruct (inv_empty E fp (to_raw (clean_content (db_content db))) (inv_policy _ _ HI)) as (I0 & U0 & K0).
  destruct (load_users_complete E (map clean_user (db_users db)) (empty_db fp (to_raw (clean_content (db_content db)))) I0 U0 K0) as (db' & L & C & Pa).
  - apply List.Forall_forall. intros v Hv. apply in_map_iff in Hv as (u & <- & Hu). apply elem_of_list_In, elem_of_list_lookup in Hu as [i Hi].
    exact (clean_loadable E db i u HI Hi (S3 _ _ Hi)).
  - intros i j u v Hu Hv N. cbn in Hu, Hv. rewrite list_lookup_fmap in Hu, Hv. apply fmap_Some in Hu as (x & Hx & ->). apply fmap_Some in Hv as (y & Hy & ->).
    apply (clean_apart E db i j); auto; [exact (S3 _ _ Hx)|exact (S3 _ _ Hy)|lia].
  - exists db'. split; [|split; [|exact Pa]].
    + f_equal. exact L.
    + rewrite C. unfold has_version in V. destruct db as [[]]. cbn in *. subst. reflexivity.
Qed.
Lemma reload_bytes E nd fp fs P fs0 db s : register_typed E -> reachable_by E P fs0 db -> ids_unique db -> marshal (db_content db) = Some s ->
  exists db', load_bytes E nd fp fs s = (fs, Loaded db') /\ db_content db' = clean_content (db_content db) /\ db_path db' = fp.
Proof.
  intros RT HR HU M. apply (reload_state E nd fp fs db s); auto; [exact (inv_reachable_by _ _ _ _ HR)|exact (stored_reachable E P fs0 db RT HR)|exact (version_reachable _ _ _ _ HR)].
Qed.
Lemma reload E nd P fs0 fs fp db s : register_typed E -> reachable_by E P fs0 db -> ids_unique db -> marshal (db_content db) = Some s ->
  fs !! fp = Some (File s) -> fp <> "" -> has_prefix fp "~" = false -> nd_stat_err nd = false -> nd_read_err nd = false ->
  exists db', new_database E nd fp fs = (fs, Loaded db') /\ db_content db' = clean_content (db_content db) /\ db_path db' = fp.
Proof.
  intros RT HR HU M F Ne T H1 H2. unfold new_database. rewrite H1. apply String.eqb_neq in Ne. rewrite Ne, F. unfold read_file, expand. rewrite H2, T, F.
  eapply reload_bytes; eauto.
Qed.

(** ** Valid texts are kept *)
#[local] Opaque valid_utf8 sanitize.
Lemma sanitize_list l : all_utf8 l -> map sanitize l = l.
Proof. intros H. induction H as [|s l Hs _ IH]; cbn [map]; [reflexivity|]. rewrite IH. now rewrite sanitize_valid. Qed.
Lemma utf8_app a b : all_utf8 (a ++ b)%list <-> all_utf8 a /\ all_utf8 b.
Proof. unfold all_utf8. apply Forall_app. Qed.
Lemma utf8_cons a b : all_utf8 (a :: b) <-> valid_utf8 a = true /\ all_utf8 b.
Proof. unfold all_utf8. apply List.Forall_cons_iff. Qed.
Lemma utf8_flat {A} (f : A -> list string) l : all_utf8 (flat_map f l) <-> Forall (fun a => all_utf8 (f a)) l.
Proof.
  induction l as [|a l IH]; cbn [flat_map].
  - split; constructor.
  - rewrite utf8_app, IH, List.Forall_cons_iff. reflexivity.
Qed.
Lemma map_keep {A} (f g : A -> A) (P : A -> Prop) l : (forall a, P a -> f a = g a) -> Forall P l -> map f l = map g l.
Proof. intros K H. induction H as [|a l Ha _ IH]; cbn [map]; [reflexivity|]. rewrite IH. now rewrite K. Qed.
Lemma map_same {A} (f : A -> A) (P : A -> Prop) l : (forall a, P a -> f a = a) -> Forall P l -> map f l = l.
Proof. intros K H. rewrite (map_keep f (fun a => a) P l K H). apply map_id. Qed.
Lemma opt_same {A} (f : A -> A) (t : A -> list string) x : (forall a, all_utf8 (t a) -> f a = a) -> all_utf8 (opt_texts t x) -> option_map f x = x.
Proof. intros K H. destruct x as [a|]; [|reflexivity]. cbn in *. now rewrite K. Qed.
Ltac utf := repeat match goal with H : all_utf8 (_ :: _) |- _ => apply utf8_cons in H as [? H] end.
Ltac keep x := intros H; utf; destruct x; unfold clean_name, clean_org, clean_loc, clean_email, clean_password, clean_pubkey, clean_apikey, clean_device, clean_image, clean_role; cbn in *; now rewrite ?sanitize_valid by assumption.
Lemma keep_name n : all_utf8 (name_texts n) -> clean_name n = n. Proof. unfold name_texts. keep n. Qed.
Lemma keep_loc n : all_utf8 (loc_texts n) -> clean_loc n = n. Proof. unfold loc_texts. keep n. Qed.
Lemma keep_email n : all_utf8 (email_texts n) -> clean_email n = n. Proof. unfold email_texts. keep n. Qed.
Lemma keep_password n : all_utf8 (password_texts n) -> clean_password n = n. Proof. unfold password_texts. keep n. Qed.
Lemma keep_pubkey n : all_utf8 (pubkey_texts n) -> clean_pubkey n = n. Proof. unfold pubkey_texts. keep n. Qed.
Lemma keep_apikey n : all_utf8 (apikey_texts n) -> clean_apikey n = n. Proof. unfold apikey_texts. keep n. Qed.
Lemma keep_device n : all_utf8 (device_texts n) -> clean_device n = n. Proof. unfold device_texts. keep n. Qed.
Lemma keep_image n : all_utf8 (image_texts n) -> clean_image n = n. Proof. unfold image_texts. keep n. Qed.
Lemma keep_role n : all_utf8 (role_texts n) -> clean_role n = n. Proof. unfold role_texts. keep n. Qed.
Lemma keep_org n : all_utf8 (org_texts n) -> clean_org n = n.
Proof. unfold org_texts. intros H. utf. destruct n. unfold clean_org. cbn in *. rewrite sanitize_list by assumption. now rewrite sanitize_valid. Qed.
Lemma keep_params (m : gmap string string) : all_utf8 (map snd (map_to_list m)) -> sanitize <$> m = m.
Proof.
  intros H. apply map_eq. intros k. rewrite lookup_fmap. destruct (m !! k) as [v|] eqn:L; [|reflexivity]. cbn. f_equal. apply sanitize_valid.
  unfold all_utf8 in H. rewrite List.Forall_forall in H. apply H. apply in_map_iff. exists (k, v). split; [reflexivity|]. now apply elem_of_list_In, elem_of_map_to_list.
Qed.
Lemma keep_mfa t : all_utf8 (mfa_texts t) -> clean_mfa t = set t_cache (fun _ => None) t.
Proof.
  unfold mfa_texts. rewrite !utf8_app. intros (H & D & _ & P & _). utf. destruct t. unfold clean_mfa. cbn in *. rewrite (keep_params _ P).
  rewrite (opt_same _ _ _ keep_device D). now rewrite !sanitize_valid by assumption.
Qed.
Lemma keep_user u : all_utf8 (user_texts u) -> clean_user u = no_cache u.
Proof.
  unfold user_texts. rewrite !utf8_app, !utf8_flat. intros (H & N & O & Ns & Os & As & Em & Es & Ps & Pk & Ak & Mf & Av & Ro). utf.
  destruct u. unfold clean_user, no_cache. cbn in *.
  rewrite (opt_same _ _ _ keep_name N), (opt_same _ _ _ keep_org O), (opt_same _ _ _ keep_email Em), (opt_same _ _ _ keep_image Av).
  rewrite (map_same _ _ _ keep_name Ns), (map_same _ _ _ keep_org Os), (map_same _ _ _ keep_loc As), (map_same _ _ _ keep_email Es),
    (map_same _ _ _ keep_password Ps), (map_same _ _ _ keep_pubkey Pk), (map_same _ _ _ keep_apikey Ak), (map_same _ _ _ keep_role Ro).
  rewrite (map_keep _ _ _ _ keep_mfa Mf). now rewrite !sanitize_valid by assumption.
Qed.
Lemma keep_content c : all_utf8 (content_texts c) -> clean_content c = drop_caches c.
Proof.
  unfold content_texts. rewrite utf8_cons, utf8_flat. intros (V & U). destruct c. unfold clean_content, drop_caches. cbn in *.
  rewrite sanitize_valid by assumption. unfold set. cbn. f_equal. exact (map_keep _ no_cache _ _ keep_user U).
Qed.
