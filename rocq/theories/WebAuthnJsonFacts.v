(** Lemmas about the JSON form of the WebAuthn messages. *)
From Coq Require Import String Ascii ZArith NArith Lia Bool Arith List ZifyBool ZifyN ZifyNat.
From stdpp Require Import gmap strings.
From RecordUpdate Require Import RecordSet.
From Verif Require Import GoStr Utf8 Codec Json JsonFacts GoErr Types Env Persist WebAuthn SpecPersist SpecLayout SpecWebAuthn.
Import ListNotations.
Import RecordSetNotations.
Open Scope string_scope.

(** ** Reading the values of a field one after the other *)
Fixpoint runs {A} (f : rd A) (vs : list json) (c : A) : option A :=
  match vs with [] => Some c | v :: vs => match f c v with Some c => runs f vs c | None => None end end.
Definition chk {A} (z : A) (f : rd A) (vs : list json) : bool := forallb (fun v => match f z v with Some _ => true | None => false end) vs.
Lemma runs_app {A} (f : rd A) a b c : runs f (a ++ b)%list c = match runs f a c with Some c => runs f b c | None => None end.
Proof. revert c. induction a as [|v a IH]; intros c; [reflexivity|]. cbn. destruct (f c v); [apply IH|reflexivity]. Qed.
Lemma vals_cons k v m n : vals ((k, v) :: m) n = if String.eqb (fold_key n) (fold_key k) then v :: vals m n else vals m n.
Proof. unfold vals. cbn [List.filter fst]. destruct (String.eqb (fold_key n) (fold_key k)); reflexivity. Qed.
Lemma vals_app a b n : vals (a ++ b)%list n = (vals a n ++ vals b n)%list.
Proof. unfold vals. now rewrite List.filter_app, map_app. Qed.

Ltac known := repeat match goal with |- context [String.eqb (fold_key ?a) (fold_key ?b)] =>
  let v := eval vm_compute in (String.eqb (fold_key a) (fold_key b)) in change (String.eqb (fold_key a) (fold_key b)) with v end; cbv iota.
Lemma chk_cons {A} (z : A) f v vs : chk z f (v :: vs) = match f z v with Some _ => true | None => false end && chk z f vs.
Proof. reflexivity. Qed.
Ltac member_case IH :=
  cbn [mb_read skip runs]; rewrite ?chk_cons;
  match goal with
  | |- (match option_map _ (?f ?x ?v) with _ => _ end) = _ <-> _ => destruct (f x v); cbn [option_map]; [rewrite IH; cbn; reflexivity|intuition discriminate]
  | |- (match match ?f ?x ?v with _ => _ end with _ => _ end) = _ <-> _ => destruct (f x v); cbn [andb]; [rewrite IH; reflexivity|intuition discriminate]
  end.
Ltac by_members fs :=
  let r := fresh "r" in let k := fresh "k" in let v := fresh "v" in let ms := fresh "ms" in let IH := fresh "IH" in let K := fresh "K" in let r' := fresh in
  intros ms; induction ms as [|[k v] ms IH]; intros r r';
  [destruct r, r'; unfold vals; cbn; intuition congruence|];
  cbn [rd_members]; rewrite !vals_cons; cbn [find mb_name fs skip];
  generalize (fold_key k); intros K;
  repeat match goal with |- context [String.eqb (fold_key ?n) K] => destruct (String.eqb_spec (fold_key n) K) as [<-|_]; [known; member_case IH|] end;
  cbv iota; apply IH.
Lemma client_members : forall ms r r', rd_members client_m ms r = Some r' <->
  runs rd_str (vals ms "challenge") (cl_challenge r) = Some (cl_challenge r') /\ runs rd_bool (vals ms "crossOrigin") (cl_cross r) = Some (cl_cross r') /\
  chk "" rd_str (vals ms "origin") = true /\ runs rd_str (vals ms "type") (cl_type r) = Some (cl_type r').
Proof. by_members client_m. Qed.
Lemma cred_members : forall ms r r', rd_members cred_m ms r = Some r' <->
  chk "" rd_str (vals ms "aaguid") = true /\ chk "" rd_str (vals ms "credentialId") = true /\
  runs (rd_map VOther rd_any) (vals ms "publicKey") (cd_pubkey r) = Some (cd_pubkey r').
Proof. by_members cred_m. Qed.
Lemma auth_members : forall ms r r', rd_members auth_m ms r = Some r' <->
  runs rd_str (vals ms "rpIdHash") (ad_rpid r) = Some (ad_rpid r') /\ runs (rd_map false rd_bool) (vals ms "flags") (ad_flags r) = Some (ad_flags r') /\
  runs (rd_uint (2 ^ 32)) (vals ms "signatureCounter") (ad_counter r) = Some (ad_counter r') /\ chk VOther rd_any (vals ms "extensions") = true /\
  runs (rd_ptr cred_z (rd_struct cred_m)) (vals ms "credentialData") (ad_cred r) = Some (ad_cred r').
Proof. by_members auth_m. Qed.
Lemma stmt_members : forall ms r r', rd_members stmt_m ms r = Some r' <->
  chk 0%Z rd_int (vals ms "alg") = true /\ chk "" rd_str (vals ms "sig") = true /\ chk [] (rd_list "" rd_str) (vals ms "x5c") = true.
Proof. by_members stmt_m. Qed.
Lemma att_members : forall ms r r', rd_members att_m ms r = Some r' <->
  chk None (rd_ptr tt (rd_struct stmt_m)) (vals ms "attStmt") = true /\
  runs (rd_ptr auth_z (rd_struct auth_m)) (vals ms "authData") (ao_auth r) = Some (ao_auth r') /\ chk "" rd_str (vals ms "fmt") = true.
Proof. by_members att_m. Qed.
Lemma device_members : forall ms r r', rd_members device_m ms r = Some r' <-> chk "" rd_str (vals ms "name") = true /\ chk "" rd_str (vals ms "type") = true.
Proof. by_members device_m. Qed.
Lemma register_members : forall ms r r', rd_members register_m ms r = Some r' <->
  runs rd_str (vals ms "id") (wr_id r) = Some (wr_id r') /\ runs rd_str (vals ms "type") (wr_type r) = Some (wr_type r') /\
  runs (rd_list "" rd_str) (vals ms "transports") (wr_transports r) = Some (wr_transports r') /\ chk false rd_bool (vals ms "success") = true /\
  runs (rd_ptr att_z (rd_struct att_m)) (vals ms "attestationObject") (wr_att r) = Some (wr_att r') /\
  chk None (rd_ptr client_z (rd_struct client_m)) (vals ms "clientData") = true /\ chk None (rd_ptr tt (rd_struct device_m)) (vals ms "device") = true.
Proof. by_members register_m. Qed.
Lemma authreq_members : forall ms r r', rd_members authreq_m ms r = Some r' <->
  runs rd_str (vals ms "id") (wq_id r) = Some (wq_id r') /\ chk "" rd_str (vals ms "type") = true /\
  chk None (rd_ptr auth_z (rd_struct auth_m)) (vals ms "auth_data") = true /\ runs rd_str (vals ms "auth_data_encoded") (wq_auth r) = Some (wq_auth r') /\
  chk None (rd_ptr client_z (rd_struct client_m)) (vals ms "client_data") = true /\ runs rd_str (vals ms "client_data_encoded") (wq_client r) = Some (wq_client r') /\
  chk "" rd_str (vals ms "signature") = true /\ runs rd_str (vals ms "signature_encoded") (wq_sig r) = Some (wq_sig r').
Proof. by_members authreq_m. Qed.

(** ** What the readers of single fields mean *)
Lemma last_cons {A} (t : A) l c : List.last (t :: l) c = List.last l t.
Proof.
  revert t c. induction l as [|x l IH]; intros t c; [reflexivity|]. change (List.last (t :: x :: l) c) with (List.last (x :: l) c).
  now rewrite !IH.
Qed.
Lemma last_default {A} (l : list A) a b : l <> [] -> List.last l a = List.last l b.
Proof. destruct l as [|x l]; [congruence|]. intros _. now rewrite !last_cons. Qed.
Definition strs (v : json) : list string := match v with JStr t => [t] | _ => [] end.
Definition bools (v : json) : list bool := match v with JBool t => [t] | _ => [] end.
Definition textual (v : json) : Prop := v = JNull \/ exists t, v = JStr t.
Definition boolean (v : json) : Prop := v = JNull \/ exists t, v = JBool t.
Lemma runs_str vs c s : runs rd_str vs c = Some s <-> Forall textual vs /\ s = List.last (flat_map strs vs) c.
Proof.
  revert c. induction vs as [|v vs IH]; intros c; cbn [runs flat_map].
  - split; [intros [= ->]; now split|now intros [_ ->]].
  - rewrite Forall_cons_iff. destruct v; cbn [rd_str strs app]; try (split; [discriminate|intros [[[H|[t H]] _] _]; discriminate]).
    + rewrite IH. split; [intros [F E]; split; [split; [now left|exact F]|exact E]|tauto].
    + rewrite IH, last_cons. split; [intros [F E]; split; [split; [right; eauto|exact F]|exact E]|tauto].
Qed.
Lemma runs_bool vs c s : runs rd_bool vs c = Some s <-> Forall boolean vs /\ s = List.last (flat_map bools vs) c.
Proof.
  revert c. induction vs as [|v vs IH]; intros c; cbn [runs flat_map].
  - split; [intros [= ->]; now split|now intros [_ ->]].
  - rewrite Forall_cons_iff. destruct v; cbn [rd_bool bools app]; try (split; [discriminate|intros [[[H|[t H]] _] _]; discriminate]).
    + rewrite IH. split; [intros [F E]; split; [split; [now left|exact F]|exact E]|tauto].
    + rewrite IH, last_cons. split; [intros [F E]; split; [split; [right; eauto|exact F]|exact E]|tauto].
Qed.
Lemma text_iff m n s : text_of m n s <-> runs rd_str (vals m n) "" = Some s.
Proof. rewrite runs_str. split; [intros [F E]|intros [F E]]; [now split|now constructor]. Qed.
Lemma flag_iff m n s : flag_of m n s <-> runs rd_bool (vals m n) false = Some s.
Proof. rewrite runs_bool. split; [intros [F E]|intros [F E]]; [now split|now constructor]. Qed.
Lemma chk_iff {A} (z : A) f vs (P : json -> Prop) : (forall v, P v <-> exists x, f z v = Some x) -> chk z f vs = true <-> Forall P vs.
Proof.
  intros H. unfold chk. rewrite forallb_forall, List.Forall_forall. split; intros G v Hv; specialize (G v Hv).
  - apply H. destruct (f z v); [eauto|discriminate].
  - apply H in G as [x ->]. reflexivity.
Qed.
Lemma rd_str_ok z v : textual v <-> exists x, rd_str z v = Some x.
Proof.
  unfold textual. split; [intros [ -> | [t ->] ]; cbn; eauto|]. intros [x H]. destruct v; cbn in H; try discriminate; eauto.
Qed.
Lemma rd_bool_ok z v : boolean v <-> exists x, rd_bool z v = Some x.
Proof.
  unfold boolean. split; [intros [ -> | [t ->] ]; cbn; eauto|]. intros [x H]. destruct v; cbn in H; try discriminate; eauto.
Qed.
Lemma is_text_iff m n : is_text m n <-> chk "" rd_str (vals m n) = true.
Proof. symmetry. apply chk_iff. apply rd_str_ok. Qed.
Lemma is_flag_iff m n : is_flag m n <-> chk false rd_bool (vals m n) = true.
Proof. symmetry. apply chk_iff. apply rd_bool_ok. Qed.

Lemma digits_val_iff s n : digits_val (los s) = Some n <-> s <> "" /\ Forall (fun a => is_digit a = true) (los s) /\ n = dec_val_l (los s) 0.
Proof.
  unfold digits_val. destruct s as [|a s]; [split; [discriminate|intros [H _]; congruence]|]. cbn [los]. 
  destruct (forallb is_digit (a :: los s)) eqn:F; cbn [los] in *.
  - split; [intros [= <-]|intros (_ & _ & ->); reflexivity]. split; [discriminate|]. split; [|reflexivity].
    apply List.Forall_forall. now apply forallb_forall.
  - split; [discriminate|]. intros (_ & G & _). exfalso. rewrite (proj2 (forallb_forall _ _)) in F; [discriminate|]. now apply List.Forall_forall.
Qed.
Lemma rd_uint_iff b c v n : rd_uint b c v = Some n <-> (v = JNull /\ n = c) \/ exists s, v = JNum s /\ uint_lit b s n.
Proof.
  unfold uint_lit. destruct v as [ |b0|s|s|l|m]; cbn; try (split; [discriminate|intros [[? _]|(? & ? & _)]; discriminate]).
  - split; [intros [= ->]; now left|intros [[_ ->]|(? & ? & _)]; [reflexivity|discriminate]].
  - split.
    + destruct (digits_val (los s)) as [k|] eqn:D; [|discriminate]. apply digits_val_iff in D as (D1 & D2 & D3). destruct (N.ltb_spec k b); [|discriminate].
      intros [= <-]. right. exists s. now repeat split.
    + intros [[H _]|(t & [= <-] & D1 & D2 & D3 & D4)]; [discriminate|]. rewrite (proj2 (digits_val_iff s n)) by auto. destruct (N.ltb_spec n b); [reflexivity|lia].
Qed.
Lemma uint_iff b vs n : uint_vals b vs n <-> runs (rd_uint b) vs 0%N = Some n.
Proof.
  split.
  - induction 1 as [|vs n H IH|vs n0 s n H IH L]; [reflexivity| |]; rewrite runs_app, IH; cbn [runs].
    + reflexivity.
    + now rewrite (proj2 (rd_uint_iff b n0 (JNum s) n)) by (right; eauto).
  - revert n. induction vs as [|v vs IH] using rev_ind; intros n; [intros [= <-]; constructor|]. rewrite runs_app.
    destruct (runs (rd_uint b) vs 0%N) as [c|] eqn:E; [|discriminate]. cbn [runs]. destruct (rd_uint b c v) as [x|] eqn:F; [|discriminate]. intros [= <-].
    apply rd_uint_iff in F as [[-> ->]|(s & -> & L)]; [now apply UintNull, IH|]. eapply UintNum; [now apply IH|exact L].
Qed.

Lemma members_app {R} (fs : list (member R)) a b r : rd_members fs (a ++ b)%list r = match rd_members fs a r with Some r => rd_members fs b r | None => None end.
Proof.
  revert r. induction a as [|[k v] a IH]; intros r; [reflexivity|]. cbn [rd_members app].
  destruct (find (fun f => String.eqb (fold_key (mb_name f)) (fold_key k)) fs) as [f|]; [|apply IH]. destruct (mb_read f r v); [apply IH|reflexivity].
Qed.
Section Ptr.
  Context {A : Type} (fs : list (member A)) (z : A) (R : members -> A -> Prop) (HR : forall m a, rd_members fs m z = Some a <-> R m a).
  Definition tied (y : option members) (x : option A) : Prop :=
    match y, x with None, None => True | Some m, Some a => R m a | _, _ => False end.
  Lemma tied_start y x : tied y x -> rd_members fs (default [] y) z = Some (default z x).
  Proof. destruct y, x; cbn; try tauto. intros H. now apply HR. Qed.
  Lemma merged_runs vs y : merged R vs y -> exists x, runs (rd_ptr z (rd_struct fs)) vs None = Some x /\ tied y x.
  Proof.
    induction 1 as [|vs x H (x' & IH & T)|vs x m a H (x' & IH & T) Ha].
    - now exists None.
    - exists None. rewrite runs_app, IH. now split.
    - exists (Some a). rewrite runs_app, IH. cbn [runs rd_ptr rd_struct]. apply HR in Ha as G. rewrite members_app, (tied_start _ _ T) in G. rewrite G. now split.
  Qed.
  Lemma runs_merged vs x : runs (rd_ptr z (rd_struct fs)) vs None = Some x -> exists y, merged R vs y /\ tied y x.
  Proof.
    revert x. induction vs as [|v vs IH] using rev_ind; intros x; [intros [= <-]; exists None; split; [constructor|exact I]|].
    rewrite runs_app. destruct (runs (rd_ptr z (rd_struct fs)) vs None) as [c|] eqn:E; [|discriminate]. destruct (IH c eq_refl) as (y & M & T).
    cbn [runs]. destruct v as [ |b|s|s|l|m]; cbn [rd_ptr rd_struct option_map]; try discriminate.
    - intros [= <-]. exists None. split; [econstructor; exact M|exact I].
    - destruct (rd_members fs m (default z c)) as [a|] eqn:F; [|discriminate]. intros [= <-].
      assert (G : R (default [] y ++ m)%list a) by (apply HR; now rewrite members_app, (tied_start _ _ T)).
      exists (Some (default [] y ++ m)%list). split; [econstructor; eauto|exact G].
  Qed.
  Lemma ptr_iff vs x : ptr_vals R vs x <-> runs (rd_ptr z (rd_struct fs)) vs None = Some x.
  Proof.
    split.
    - intros [M|m a M Ha]; destruct (merged_runs _ _ M) as (x' & E & T); rewrite E; destruct x' as [a'|]; cbn in T; try tauto; try reflexivity.
      apply HR in T, Ha. congruence.
    - intros E. destruct (runs_merged _ _ E) as (y & M & T). destruct y as [m|], x as [a|]; cbn in T; try tauto; [now apply (PtrTo _ _ m)|now constructor].
  Qed.
  Lemma is_obj_iff m n : is_obj (fun ms => exists a, R ms a) m n <-> chk None (rd_ptr z (rd_struct fs)) (vals m n) = true.
  Proof.
    symmetry. apply chk_iff. intros v. split.
    - intros [->|(ms & -> & a & Ha)]; [now exists None|]. cbn. apply HR in Ha. rewrite Ha. cbn. eauto.
    - intros [x H]. destruct v as [ |b|s|s|l|ms]; cbn in H; try discriminate; [now left|]. right. exists ms. split; [reflexivity|].
      destruct (rd_members fs ms z) as [a|] eqn:E; [|discriminate]. exists a. now apply HR.
  Qed.
End Ptr.

Lemma rd_elems_iff c l l' : rd_elems "" rd_str c l = Some l' <-> List.length l' = List.length l /\
  forall i j, nth_error l i = Some j -> (exists s, j = JStr s /\ nth_error l' i = Some s) \/ (j = JNull /\ nth_error l' i = Some (nth i c "")).
Proof.
  revert c l'. induction l as [|j l IH]; intros c l'; cbn [rd_elems].
  - split; [intros [= <-]; split; [reflexivity|]; intros [|i] j; discriminate|]. intros [H _]. destruct l'; [reflexivity|discriminate].
  - set (x := match c with x :: _ => x | [] => "" end). set (c' := match c with _ :: c => c | [] => [] end).
    assert (Hx : nth 0 c "" = x) by now destruct c. assert (Hc : forall i, nth (S i) c "" = nth i c' "") by (intros i; destruct c; [now destruct i|reflexivity]).
    split.
    + intros H. destruct (rd_str x j) as [s|] eqn:E; [|discriminate]. destruct (rd_elems "" rd_str c' l) as [xs|] eqn:F; [|discriminate]. injection H as <-.
      apply IH in F as [L F]. split; [cbn; lia|]. intros [|i] k; cbn [nth_error].
      * intros [= <-]. destruct j; cbn in E; try discriminate; [right|left]; [split; [reflexivity|rewrite Hx; congruence]|injection E as ->; eauto].
      * intros Hk. rewrite Hc. now apply F.
    + intros [L F]. destruct l' as [|s l']; [discriminate|]. pose proof (F 0%nat j eq_refl) as F0. cbn [nth_error] in F0. rewrite Hx in F0.
      assert (rd_str x j = Some s) as -> by (destruct F0 as [(t & -> & [= <-])|[-> [= <-]]]; reflexivity).
      rewrite (proj2 (IH c' l')); [reflexivity|]. split; [cbn in L; lia|]. intros i k Hk. rewrite <- Hc. exact (F (S i) k Hk).
Qed.
Lemma texts_iff vs l : texts_vals vs l <-> runs (rd_list "" rd_str) vs [] = Some l.
Proof.
  split.
  - induction 1 as [|vs l H IH|vs l js l' H IH L F]; [reflexivity| |]; rewrite runs_app, IH; cbn [runs rd_list]; [reflexivity|].
    now rewrite (proj2 (rd_elems_iff l js l')) by (split; assumption).
  - revert l. induction vs as [|v vs IH] using rev_ind; intros l; [intros [= <-]; constructor|]. rewrite runs_app.
    destruct (runs (rd_list "" rd_str) vs []) as [c|]; [|discriminate]. cbn [runs].
    destruct v as [ |b|s|s|js|m]; cbn [rd_list]; try discriminate.
    + intros [= <-]. eapply TxNull, IH. reflexivity.
    + destruct (rd_elems "" rd_str c js) as [l'|] eqn:E; [|discriminate]. intros [= <-]. apply rd_elems_iff in E as [L F]. eapply TxArr; [apply IH; reflexivity|exact L|exact F].
Qed.
Lemma is_texts_iff m n : is_texts m n <-> chk [] (rd_list "" rd_str) (vals m n) = true.
Proof.
  symmetry. apply chk_iff. intros v. split.
  - intros [->|(l & -> & F)]; [now exists []|]. cbn [rd_list].
    assert (G : forall c, exists x, rd_elems "" rd_str c l = Some x); [|apply G]. induction F as [|j l Hj F IH]; intros c; [now exists []|]. cbn [rd_elems].
    destruct (IH (match c with _ :: c => c | [] => [] end)) as [xs ->]. destruct Hj as [->|[s ->]]; cbn [rd_str]; eauto.
  - intros [x H]. destruct v as [ |b|s|s|l|ms]; cbn in H; try discriminate; [now left|]. right. exists l. split; [reflexivity|].
    revert x H. generalize (@nil string). induction l as [|j l IH]; intros c x H; [constructor|]. cbn [rd_elems] in H.
    match goal with _ : match rd_str ?a j with _ => _ end = _ |- _ => destruct (rd_str a j) eqn:E; [|discriminate] end.
    match goal with _ : match rd_elems "" rd_str ?a l with _ => _ end = _ |- _ => destruct (rd_elems "" rd_str a l) eqn:F; [|discriminate] end.
    constructor; [|eapply IH; eassumption]. destruct j; cbn in E; try discriminate; eauto.
Qed.

Section Map.
  Context {A : Type} (z : A) (f : rd A) (V : json -> A -> Prop) (HV : forall j v, f z j = Some v <-> V j v).
  Lemma exactly_cons k v m n : exactly ((k, v) :: m) n = if String.eqb n k then v :: exactly m n else exactly m n.
  Proof. unfold exactly. cbn [List.filter fst]. destruct (String.eqb n k); reflexivity. Qed.
  Lemma entries_some ms m : Forall (fun kv => exists v, V (snd kv) v) ms -> exists y, rd_entries z f ms m = Some y.
  Proof. intros F. revert m. induction F as [|[k j] ms [v Hv] F IH]; intros m; cbn; [eauto|]. apply HV in Hv. cbn in Hv. rewrite Hv. apply IH. Qed.
  Lemma entries_spec ms m y : rd_entries z f ms m = Some y -> Forall (fun kv => exists v, V (snd kv) v) ms /\
    forall k, match rev (exactly ms k) with [] => y !! k = m !! k | j :: _ => exists v, V j v /\ y !! k = Some v end.
  Proof.
    revert m. induction ms as [|[k j] ms IH]; intros m; cbn [rd_entries].
    - intros [= <-]. split; [constructor|]. intros k. reflexivity.
    - destruct (f z j) as [v|] eqn:E; [|discriminate]. apply HV in E. intros H. destruct (IH _ H) as [F G]. split; [constructor; [now exists v|exact F]|].
      intros k'. specialize (G k'). rewrite exactly_cons. destruct (String.eqb_spec k' k) as [->|Ne].
      + cbn [rev]. destruct (rev (exactly ms k)) as [|j' l]; cbn [app]; [|exact G]. exists v. split; [exact E|]. rewrite G. apply lookup_insert.
      + destruct (rev (exactly ms k')); [|exact G]. rewrite G. apply lookup_insert_ne. congruence.
  Qed.
  Lemma entries_iff ms m y : rd_entries z f ms m = Some y <-> Forall (fun kv => exists v, V (snd kv) v) ms /\
    forall k, match rev (exactly ms k) with [] => y !! k = m !! k | j :: _ => exists v, V j v /\ y !! k = Some v end.
  Proof.
    split; [apply entries_spec|]. intros [F G]. destruct (entries_some ms m F) as [y' H]. rewrite H. f_equal. destruct (entries_spec _ _ _ H) as [_ G'].
    apply map_eq. intros k. specialize (G k). specialize (G' k). destruct (rev (exactly ms k)); [congruence|].
    destruct G as (v & Hv & ->), G' as (v' & Hv' & ->). apply HV in Hv, Hv'. congruence.
  Qed.
  Lemma map_iff vs x : map_vals V vs x <-> runs (rd_map z f) vs None = Some x.
  Proof.
    split.
    - induction 1 as [|vs x H IH|vs x ms y H IH F G]; [reflexivity| |]; rewrite runs_app, IH; cbn [runs rd_map]; [reflexivity|].
      now rewrite (proj2 (entries_iff ms (default ∅ x) y)) by (split; assumption).
    - revert x. induction vs as [|v vs IH] using rev_ind; intros x; [intros [= <-]; constructor|]. rewrite runs_app.
      destruct (runs (rd_map z f) vs None) as [c|]; [|discriminate]. cbn [runs]. destruct v as [ |b|s|s|l|ms]; cbn [rd_map]; try discriminate.
      + intros [= <-]. eapply MvNull, IH. reflexivity.
      + destruct (rd_entries z f ms (default ∅ c)) as [y|] eqn:E; [|discriminate]. cbn [option_map]. intros [= <-]. apply entries_iff in E as [F G].
        eapply MvObj; [apply IH; reflexivity|exact F|exact G].
  Qed.
End Map.
Lemma flag_value_iff j b : rd_bool false j = Some b <-> flag_value j b.
Proof. destruct j; cbn; (split; [try discriminate; intros [= <-]; constructor|inversion 1; reflexivity]). Qed.
Lemma floats_ok_iff j : floats_ok j = true <-> in_range64 j.
Proof.
  revert j. fix IH 1. intros [ |b|s|s|l|m]; cbn [floats_ok].
  - split; [constructor|reflexivity].
  - split; [constructor|reflexivity].
  - destruct (parse_float s) as [z|] eqn:E; (split; [try discriminate; intros _; now apply (RgNum s z)|]); [reflexivity|]. inversion 1. congruence.
  - split; [constructor|reflexivity].
  - assert (G : forallb floats_ok l = true <-> Forall in_range64 l).
    { induction l as [|x l IHl]; cbn; [split; [constructor|reflexivity]|]. rewrite andb_true_iff, Forall_cons_iff, IHl, (IH x). reflexivity. }
    rewrite G. split; [now constructor|now inversion 1].
  - assert (G : forallb (fun kv => floats_ok (snd kv)) m = true <-> Forall (fun kv => in_range64 (snd kv)) m).
    { induction m as [|[k x] m IHl]; cbn; [split; [constructor|reflexivity]|]. rewrite andb_true_iff, Forall_cons_iff, IHl. cbn [snd]. rewrite (IH x). reflexivity. }
    rewrite G. split; [now constructor|now inversion 1].
Qed.
Lemma any_value_iff j v : rd_any VOther j = Some v <-> any_value j v.
Proof.
  unfold rd_any. split.
  - destruct (floats_ok j) eqn:F; [|discriminate]. apply floats_ok_iff in F as G. intros [= <-]. destruct j; try (constructor; [exact G|intros; split; discriminate]).
    + cbn in F. destruct (parse_float lit) eqn:E; [|discriminate]. now constructor.
    + constructor.
  - intros [s z E|s|j' G N].
    + cbn. now rewrite E.
    + reflexivity.
    + apply floats_ok_iff in G. rewrite G. destruct j'; try reflexivity; exfalso; destruct (N lit) + destruct (N s); congruence.
Qed.
Lemma extensions_iff vs : chk VOther rd_any vs = true <-> Forall in_range64 vs.
Proof.
  apply chk_iff. intros j. rewrite <- floats_ok_iff. unfold rd_any. destruct (floats_ok j); (split; [try discriminate; eauto|]); [reflexivity|]. intros [x H]. discriminate.
Qed.
Lemma alg_iff vs : chk 0%Z rd_int vs = true <-> Forall is_int_lit vs.
Proof.
  apply chk_iff. intros j. unfold is_int_lit. split.
  - intros [->|(s & z & -> & E & H)]; [now exists 0%Z|]. cbn. rewrite E. unfold in_int64. replace ((- 2 ^ 63 <=? z) && (z <? 2 ^ 63))%Z with true by lia. cbn. eauto.
  - intros [x H]. destruct j as [ |b|s|s|l|m]; cbn in H; try discriminate; [now left|]. right. destruct (parse_int s) as [z|] eqn:E; [|discriminate].
    unfold in_int64 in H. destruct ((- 2 ^ 63 <=? z) && (z <? 2 ^ 63))%Z eqn:B; [|discriminate]. exists s, z. split; [reflexivity|]. split; [exact E|lia].
Qed.

(** ** The messages *)
Lemma client_iff m c : rd_members client_m m client_z = Some c <-> client_data m c.
Proof. rewrite client_members. unfold client_data. now rewrite !text_iff, flag_iff, is_text_iff. Qed.
Lemma cred_iff m c : rd_members cred_m m cred_z = Some c <-> credential_data m c.
Proof. rewrite cred_members. unfold credential_data. now rewrite !is_text_iff, (map_iff VOther rd_any any_value any_value_iff). Qed.
Lemma auth_iff m c : rd_members auth_m m auth_z = Some c <-> auth_data m c.
Proof.
  rewrite auth_members. unfold auth_data.
  rewrite text_iff, (map_iff false rd_bool flag_value flag_value_iff), uint_iff, extensions_iff, (ptr_iff cred_m cred_z credential_data cred_iff). reflexivity.
Qed.
Lemma stmt_iff m c : rd_members stmt_m m tt = Some c <-> statement_ok m.
Proof. rewrite stmt_members. unfold statement_ok. now rewrite alg_iff, is_text_iff, is_texts_iff. Qed.
Lemma is_obj_ext P Q m n : (forall ms, P ms <-> Q ms) -> is_obj P m n <-> is_obj Q m n.
Proof. intros H. unfold is_obj. rewrite !List.Forall_forall. split; intros G v Hv; (destruct (G v Hv) as [|(ms & -> & K)]; [now left|right; exists ms; split; [reflexivity|now apply H]]). Qed.
Lemma att_iff m c : rd_members att_m m att_z = Some c <-> attestation m c.
Proof.
  rewrite att_members. unfold attestation. rewrite is_text_iff, (ptr_iff auth_m auth_z auth_data auth_iff).
  rewrite <- (is_obj_iff stmt_m tt (fun m _ => statement_ok m) stmt_iff). rewrite (is_obj_ext (fun ms => exists _ : unit, statement_ok ms) statement_ok); [reflexivity|].
  intros ms. split; [now intros [_ H]|intros H; now exists tt].
Qed.
Lemma device_iff m c : rd_members device_m m tt = Some c <-> device_ok m.
Proof. rewrite device_members. unfold device_ok. now rewrite !is_text_iff. Qed.
Lemma register_iff m c : rd_members register_m m register_z = Some c <-> registration m c.
Proof.
  rewrite register_members. unfold registration. rewrite !text_iff, texts_iff, is_flag_iff, (ptr_iff att_m att_z attestation att_iff).
  rewrite <- (is_obj_iff client_m client_z client_data client_iff), <- (is_obj_iff device_m tt (fun m _ => device_ok m) device_iff).
  rewrite (is_obj_ext (fun ms => exists _ : unit, device_ok ms) device_ok); [reflexivity|]. intros ms. split; [now intros [_ H]|intros H; now exists tt].
Qed.
Lemma authreq_iff m c : rd_members authreq_m m authreq_z = Some c <-> request m c.
Proof.
  rewrite authreq_members. unfold request. rewrite !text_iff, !is_text_iff.
  rewrite <- (is_obj_iff client_m client_z client_data client_iff), <- (is_obj_iff auth_m auth_z auth_data auth_iff). reflexivity.
Qed.
Lemma decode_iff {A} (fs : list (member A)) z (R : members -> A -> Prop) : (forall m a, rd_members fs m z = Some a <-> R m a) ->
  forall s a, decode fs z s = Some a <-> message_text R s a.
Proof.
  intros HR s a. unfold decode, message_text. destruct (parse (los s)) as [j|].
  - destruct j as [ |b|n|t|l|m]; cbn [rd_struct]; try (split; [discriminate|intros (m & [H|[H _]] & _); discriminate]).
    + split.
      * intros [= <-]. exists []. split; [now right|]. apply HR. reflexivity.
      * intros (m & [H|[_ ->]] & H0); [discriminate|]. apply HR in H0. exact H0.
    + rewrite HR. split; [intros H; exists m; split; [now left|exact H]|intros (m' & [[= <-]|[H _]] & H0); [exact H0|discriminate]].
  - split; [discriminate|]. intros (m & [H|[H _]] & _); discriminate.
Qed.

(** ** What parsing yields *)
(** [s] is a number as the scanner takes it from some text. *)
Definition scanned (s : string) : Prop := exists l r, scan_num l = Some (los s, r).
Definition well_read (j : json) : Prop := Forall (fun s => valid_utf8 s = true) (json_texts j) /\ Forall scanned (json_nums j).
Lemma unquote_valid raw : valid_utf8 (unquote raw) = true.
Proof. replace (unquote raw) with (sanitize (sol (unescape raw))); [apply sanitize_is_valid|]. unfold unquote, sanitize. now rewrite los_sol. Qed.
Lemma well_read_arr v m : well_read v -> well_read (JArr m) -> well_read (JArr (v :: m)).
Proof. intros [A B] [C D]. split; cbn in *; apply Forall_app; now split. Qed.
Lemma well_read_obj k v m : valid_utf8 k = true -> well_read v -> well_read (JObj m) -> well_read (JObj ((k, v) :: m)).
Proof. intros K [A B] [C D]. split; cbn in *; [constructor; [exact K|]|]; apply Forall_app; now split. Qed.
Lemma well_read_nil_arr : well_read (JArr []). Proof. split; constructor. Qed.
Lemma well_read_nil_obj : well_read (JObj []). Proof. split; constructor. Qed.
Lemma pv_well n : (forall l j r, pv n l = Some (j, r) -> well_read j) /\ (forall l m r, pmem n l = Some (m, r) -> well_read (JObj m)) /\
  (forall l m r, parr n l = Some (m, r) -> well_read (JArr m)).
Proof.
  induction n as [|n (IHv & IHm & IHa)]; [split; [|split]; discriminate|]. split; [|split]; intros l.
  - intros j r. cbn [pv]. destruct (skip_ws l) as [|a t]; [discriminate|]. destruct (Ascii.eqb a "{").
    { destruct (skip_ws t) as [|b t']; [discriminate|]. destruct (Ascii.eqb b "}"); [intros [= <- _]; apply well_read_nil_obj|].
      destruct (pmem n t) as [[m r']|] eqn:E; [|discriminate]. intros [= <- _]. eapply IHm, E. }
    destruct (Ascii.eqb a "[").
    { destruct (skip_ws t) as [|b t']; [discriminate|]. destruct (Ascii.eqb b "]"); [intros [= <- _]; apply well_read_nil_arr|].
      destruct (parr n t) as [[m r']|] eqn:E; [|discriminate]. intros [= <- _]. eapply IHa, E. }
    destruct (Ascii.eqb a quote). { destruct (scan_str t) as [[raw r']|]; [|discriminate]. intros [= <- _]. split; cbn; repeat constructor. apply unquote_valid. }
    destruct (Ascii.eqb a "t"). { destruct (strip_prefix (los "rue") t); [|discriminate]. intros [= <- _]. split; constructor. }
    destruct (Ascii.eqb a "f"). { destruct (strip_prefix (los "alse") t); [|discriminate]. intros [= <- _]. split; constructor. }
    destruct (Ascii.eqb a "n"). { destruct (strip_prefix (los "ull") t); [|discriminate]. intros [= <- _]. split; constructor. }
    destruct (scan_num (a :: t)) as [[x r']|] eqn:E; [|discriminate]. intros [= <- _]. split; cbn; repeat constructor. exists (a :: t), r'. now rewrite los_sol.
  - intros m r. cbn [pmem]. destruct (skip_ws l) as [|a t]; [discriminate|]. destruct (Ascii.eqb a quote); [|discriminate]. destruct (scan_str t) as [[raw r1]|]; [|discriminate].
    destruct (skip_ws r1) as [|c r2]; [discriminate|]. destruct (Ascii.eqb c ":"); [|discriminate]. destruct (pv n r2) as [[v r3]|] eqn:V; [|discriminate]. apply IHv in V.
    destruct (skip_ws r3) as [|d r4]; [discriminate|]. destruct (Ascii.eqb d "}"); [intros [= <- _]; apply well_read_obj; [apply unquote_valid|exact V|apply well_read_nil_obj]|].
    destruct (Ascii.eqb d ","); [|discriminate]. destruct (pmem n r4) as [[m' r5]|] eqn:M; [|discriminate]. intros [= <- _]. apply well_read_obj; [apply unquote_valid|exact V|eapply IHm, M].
  - intros m r. cbn [parr]. destruct (pv n l) as [[v r3]|] eqn:V; [|discriminate]. apply IHv in V.
    destruct (skip_ws r3) as [|d r4]; [discriminate|]. destruct (Ascii.eqb d "]"); [intros [= <- _]; apply well_read_arr; [exact V|apply well_read_nil_arr]|].
    destruct (Ascii.eqb d ","); [|discriminate]. destruct (parr n r4) as [[m' r5]|] eqn:M; [|discriminate]. intros [= <- _]. apply well_read_arr; [exact V|eapply IHa, M].
Qed.
Lemma parse_well l j : parse l = Some j -> well_read j.
Proof.
  unfold parse. destruct (pv (S (List.length l)) l) as [[v r]|] eqn:E; [|discriminate]. destruct (skip_ws r); [|discriminate]. destruct (_ <=? _)%N; [|discriminate]. intros [= <-]. eapply pv_well, E.
Qed.

(** ** Registrations are well typed *)
Lemma vals_in m n v : In v (vals m n) -> exists k, In (k, v) m.
Proof. unfold vals. intros H. apply in_map_iff in H as ([k v'] & <- & H). apply filter_In in H as [H _]. now exists k. Qed.
Lemma member_texts m k v s : In (k, v) m -> In s (json_texts v) -> In s (json_texts (JObj m)).
Proof. intros H K. cbn. apply in_flat_map. exists (k, v). split; [exact H|right; exact K]. Qed.
Definition texts_valid (m : members) : Prop := forall s, In s (json_texts (JObj m)) -> valid_utf8 s = true.
Lemma texts_valid_member m k v ms : texts_valid m -> In (k, v) m -> v = JObj ms -> texts_valid ms.
Proof. intros H K -> s Hs. apply H. eapply member_texts; eassumption. Qed.
Lemma merged_valid {A} (R : members -> A -> Prop) vs y : merged R vs y -> (forall ms, In (JObj ms) vs -> texts_valid ms) -> texts_valid (default [] y).
Proof.
  induction 1 as [|vs x H IH|vs x m a H IH Ha]; intros G; cbn [default].
  - intros s [].
  - intros s [].
  - intros s Hs. cbn in Hs. rewrite flat_map_app in Hs. apply in_app_iff in Hs as [Hs|Hs].
    + apply IH; [|exact Hs]. intros ms Hm. apply G, in_app_iff. now left.
    + apply (G m); [apply in_app_iff; right; now left|exact Hs].
Qed.
Lemma ptr_valid {A} (R : members -> A -> Prop) m n a : ptr_vals R (vals m n) (Some a) -> texts_valid m -> exists ms, R ms a /\ texts_valid ms.
Proof.
  intros H V. inversion H as [|ms a' M Ha]; subst. exists ms. split; [exact Ha|]. apply (merged_valid R _ _ M). intros ms' Hm.
  apply vals_in in Hm as [k Hk]. exact (texts_valid_member _ _ _ _ V Hk eq_refl).
Qed.
Lemma exactly_in m k v l : rev (exactly m k) = v :: l -> In (k, v) m.
Proof.
  intros H. assert (K : In v (exactly m k)) by (apply in_rev; rewrite H; now left). unfold exactly in K. apply in_map_iff in K as ([k' v'] & <- & K).
  apply filter_In in K as [K E]. apply String.eqb_eq in E. cbn in *. now subst.
Qed.
Lemma map_keys_valid {A} (V : json -> A -> Prop) vs x : map_vals V vs x -> (forall ms, In (JObj ms) vs -> texts_valid ms) ->
  forall k v, default ∅ x !! k = Some v -> valid_utf8 k = true.
Proof.
  induction 1 as [|vs x H IH|vs x ms y H IH F G]; intros T k v; cbn [default]; [now rewrite lookup_empty|now rewrite lookup_empty|].
  intros E. specialize (G k). destruct (rev (exactly ms k)) as [|j l] eqn:R.
  - cbn in E. rewrite G in E. apply (IH (fun ms Hm => T ms (proj2 (in_app_iff _ _ _) (or_introl Hm))) k v E).
  - apply exactly_in in R. apply (T ms); [apply in_app_iff; right; now left|]. cbn. apply in_flat_map. exists (k, j). split; [exact R|now left].
Qed.
Lemma uint_vals_lt b vs n : (0 < b)%N -> uint_vals b vs n -> (n < b)%N.
Proof. intros Hb. induction 1 as [|vs n H IH|vs n0 s n H IH (_ & _ & _ & L)]; assumption. Qed.
Lemma registration_typed s q a d : decode_register s = Some q -> wr_att q = Some a -> ao_auth a = Some d ->
  (ad_counter d < 2 ^ 32)%N /\ forall m k, ad_flags d = Some m -> is_Some (m !! k) -> valid_utf8 k = true.
Proof.
  intros D A U. apply (decode_iff register_m register_z registration register_iff) in D as (ms & P & _ & _ & _ & _ & Ha & _).
  assert (V : texts_valid ms).
  { destruct P as [P|[P ->]]; [|intros t []]. apply parse_well in P as [P _]. intros t Ht. rewrite List.Forall_forall in P. now apply P. }
  rewrite A in Ha. destruct (ptr_valid _ _ _ _ Ha V) as (ms1 & (_ & Hd & _) & V1). rewrite U in Hd. destruct (ptr_valid _ _ _ _ Hd V1) as (ms2 & (_ & Hf & Hc & _) & V2).
  split; [refine (uint_vals_lt _ _ _ _ Hc); reflexivity|]. intros m k E [b Hb]. rewrite E in Hf. apply (map_keys_valid _ _ _ Hf) with (v := b); [|exact Hb].
  intros ms' Hm. apply vals_in in Hm as [k' Hk]. exact (texts_valid_member _ _ _ _ V2 Hk eq_refl).
Qed.
Lemma json_env_typed E : json_env E -> register_typed E.
Proof. intros (H & _) s q a d. rewrite H. apply registration_typed. Qed.
