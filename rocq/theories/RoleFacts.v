(** Facts about roles and names (C63, C64, C65). *)
From Coq Require Import String Ascii ZArith NArith Lia Bool Arith List.
From Verif Require Import GoStr GoErr Role Name SpecValue.
Import ListNotations.
Open Scope string_scope.

Lemma first_sep_unique (c : ascii) a b x y :
  ~ In c a -> ~ In c x -> (a ++ c :: b = x ++ c :: y)%list -> a = x /\ b = y.
Proof.
  revert x; induction a as [|u a IH]; intros [|v x] Ha Hx E; cbn in *.
  - injection E as E. auto.
  - injection E as E1 E2. subst. tauto.
  - injection E as E1 E2. subst. tauto.
  - injection E as E1 E2. subst. destruct (IH x) as [-> ->]; tauto.
Qed.

(** ** Roles *)
Lemma new_role_blank s : trim_space s = "" -> new_role s = inr (EStd ErrRoleEmpty).
Proof. intros H. unfold new_role. now rewrite H. Qed.

(** The parts of a role: no slash, or the first slash. *)
Lemma new_role_spec s r :
  trim_space s <> "" ->
  (new_role s = inl r <->
   (without "/" (trim_space s) /\ ro_org r = "" /\ ro_name r = trim_space s) \/
   (without "/" (ro_org r) /\ trim_space s = ro_org r ++ "/" ++ ro_name r)).
Proof.
  intros Hne. unfold new_role. destruct (String.eqb_spec (trim_space s) "") as [E|_]; [congruence|].
  set (t := trim_space s) in *. unfold split. destruct (split_l_cases "/" (los t)) as [[H1 H2]|(a & b & Ht & Ha & Hs)].
  - rewrite H2. cbn [map]. unfold without. split.
    + intros [= <-]. left. cbn. auto.
    + intros [(_ & Ho & Hn)|(Ho & Ht)].
      * destruct r as [n o]. cbn in *. subst. reflexivity.
      * exfalso. apply H1. rewrite Ht, !los_app. cbn. apply in_or_app. right. left. reflexivity.
  - rewrite Hs. cbn [map].
    assert (exists w ws, split_l "/" b = w :: ws) as (w & ws & Hb).
    { destruct (split_l "/" b) eqn:E; [now apply split_l_ne in E|eauto]. }
    rewrite Hb. cbn [map].
    assert (Hj : join "/" (sol w :: map sol ws) = sol b).
    { change (sol w :: map sol ws) with (map sol (w :: ws)). rewrite <- Hb.
      apply los_inj. change "/" with (String "/" ""). rewrite los_join, map_los_sol, join_split_l, los_sol. reflexivity. }
    rewrite Hj. unfold without. split.
    + intros [= <-]. right. cbn. rewrite los_sol. split; [assumption|].
      rewrite <- (sol_los t), Ht, sol_app. reflexivity.
    + intros [(Hno & _)|(Ho & Hr)].
      * exfalso. apply Hno. rewrite Ht. apply in_or_app. right. left. reflexivity.
      * f_equal. destruct r as [n o]. cbn in *.
        assert (El : (a ++ "/"%char :: b = los o ++ "/"%char :: los n)%list).
        { rewrite <- Ht. rewrite Hr, !los_app. reflexivity. }
        assert (Ha2 : a = los o /\ b = los n).
        { now apply (first_sep_unique "/"). }
        destruct Ha2 as [-> ->]. now rewrite !sol_los.
Qed.

Lemma new_role_total s : trim_space s <> "" -> exists r, new_role s = inl r.
Proof.
  intros H. unfold new_role. destruct (String.eqb_spec (trim_space s) ""); [contradiction|].
  destruct (split "/" (trim_space s)) as [|p [|q ps]]; eauto.
Qed.

(** C63 *)
Lemma role_print s r :
  new_role s = inl r ->
  trim_space s = (if has_prefix (trim_space s) "/" then "/" ++ role_string r else role_string r).
Proof.
  intros H. assert (Hne : trim_space s <> "").
  { intros E. rewrite (new_role_blank _ E) in H. discriminate. }
  apply new_role_spec in H; [|assumption]. set (t := trim_space s) in *. unfold has_prefix, role_string.
  destruct H as [(Hno & Ho & Hn)|(Hno & Ht)].
  - rewrite Ho. cbn. destruct t as [|c t']; [congruence|].
    cbn [String.prefix]. destruct (Ascii.ascii_dec "/" c) as [<-|Hc].
    + exfalso. apply Hno. now left.
    + destruct t'; symmetry; assumption.
  - rewrite Ht. destruct (String.eqb_spec (ro_org r) "") as [E|E].
    + rewrite E. cbn. destruct (ro_name r); reflexivity.
    + destruct (ro_org r) as [|c o]; [congruence|]. cbn [String.prefix append].
      destruct (Ascii.ascii_dec "/" c) as [<-|Hc]; [|reflexivity].
      exfalso. apply Hno. now left.
Qed.
(** ... so exactly a leading slash is lost; reparsing then may move the organization. *)
Lemma role_reparse_refuted : exists s r, new_role s = inl r /\ new_role (role_string r) <> inl r.
Proof.
  exists "/a/b", {| ro_name := "a/b"; ro_org := "" |}. split; [reflexivity|]. vm_compute. discriminate.
Qed.
Lemma trimmed_org_slash r : trimmed (role_string r) -> role_string r <> "" -> ro_org r <> "" -> without "/" (ro_org r) ->
  new_role (role_string r) = inl r.
Proof.
  intros Ht Hne Ho Hw. apply new_role_spec; rewrite (trim_space_id _ Ht); [assumption|].
  right. split; [assumption|]. unfold role_string. now destruct (String.eqb_spec (ro_org r) "").
Qed.

Lemma role_eqb_eq a b : role_eqb a b = true <-> a = b.
Proof.
  unfold role_eqb. rewrite andb_true_iff, !String.eqb_eq. destruct a, b; cbn. split; [intros [-> ->]|intros [= -> ->]]; auto.
Qed.
Lemma existsb_role r rs : existsb (role_eqb r) rs = true <-> In r rs.
Proof.
  rewrite existsb_exists. split.
  - intros (x & Hx & E). apply role_eqb_eq in E. now subst.
  - intros H. exists r. split; [assumption|]. now apply role_eqb_eq.
Qed.
Lemma has_role_spec rs s : has_role rs s = true <-> exists r, new_role s = inl r /\ In r rs.
Proof.
  unfold has_role. destruct rs as [|x rs].
  - split; [discriminate|]. intros (r & _ & []).
  - destruct (new_role s) as [r|e].
    + rewrite existsb_role. split; [eauto|]. intros (r' & [= <-] & H). assumption.
    + split; [discriminate|]. intros (r & [=] & _).
Qed.
(** The list after [AddRole(s)] (unchanged on error). *)
Definition roles_after (rs : list Role) (s : string) : list Role :=
  match new_role s with
  | inr _ => rs
  | inl r => match add_role_list rs r with Some rs' => rs' | None => rs end
  end.
Lemma roles_after_in rs s r : In r (roles_after rs s) <-> In r rs \/ new_role s = inl r.
Proof.
  unfold roles_after, add_role_list. destruct (new_role s) as [x|e].
  - destruct (existsb (role_eqb x) rs) eqn:E.
    + apply existsb_role in E. split; [auto|]. intros [H|[= <-]]; auto.
    + rewrite in_app_iff. cbn. split; intros [H|H]; auto.
      * destruct H as [->|[]]. auto.
      * injection H as ->. auto.
  - split; [auto|]. intros [H|[=]]. assumption.
Qed.
Lemma roles_after_nodup rs s : NoDup rs -> NoDup (roles_after rs s).
Proof.
  intros H. unfold roles_after, add_role_list. destruct (new_role s) as [x|e]; [|assumption].
  destruct (existsb (role_eqb x) rs) eqn:E; [assumption|].

  apply (NoDup_Add (a := x) (l := rs)).
  - rewrite <- (app_nil_r rs) at 1. apply Add_app.
  - split; [assumption|]. intros Hx. apply existsb_role in Hx. congruence.
Qed.
Lemma roles_after_idem rs s : roles_after (roles_after rs s) s = roles_after rs s.
Proof.
  destruct (new_role s) as [x|e] eqn:E.
  - assert (Hin : In x (roles_after rs s)) by (apply roles_after_in; auto).
    revert Hin. generalize (roles_after rs s). intros l Hin.
    unfold roles_after. rewrite E. unfold add_role_list. apply existsb_role in Hin. now rewrite Hin.
  - assert (H : forall l, roles_after l s = l) by (intros l; unfold roles_after; now rewrite E). now rewrite !H.
Qed.

(** ** Names *)
Lemma split_app_l c a b : without c a -> without c b -> split c (a ++ String c b) = [a; b].
Proof.
  unfold without. intros Ha Hb. unfold split. rewrite los_app. cbn [los].
  rewrite split_l_app by assumption. rewrite split_l_no_sep by assumption. cbn [map]. now rewrite !sol_los.
Qed.
Lemma split_no c s : without c s -> split c s = [s].
Proof. unfold without, split. intros H. rewrite split_l_no_sep by assumption. cbn. now rewrite sol_los. Qed.
Lemma split_two c s a b : split c s = [a; b] -> s = a ++ String c b /\ without c a /\ without c b.
Proof.
  unfold split, without. destruct (split_l_cases c (los s)) as [[H1 H2]|(x & y & Hs & Hx & Hsp)].
  - rewrite H2. discriminate.
  - rewrite Hsp. destruct (split_l_cases c y) as [[H1 H2]|(x2 & y2 & Hs2 & Hx2 & Hsp2)].
    + rewrite H2. intros [= <- <-]. rewrite !los_sol. repeat split; auto.
      apply los_inj. rewrite los_app. cbn. rewrite !los_sol. assumption.
    + rewrite Hsp2. destruct (split_l c y2) eqn:E; [now apply split_l_ne in E|]. discriminate.
Qed.
Lemma split_not_two c s : (forall a b, without c a -> without c b -> s <> a ++ String c b) ->
  forall a b, split c s <> [a; b].
Proof. intros H a b E. apply split_two in E as (E & Ha & Hb). exact (H a b Ha Hb E). Qed.

Lemma trim_drop_space s : trim_space (" " ++ s) = trim_space s.
Proof. reflexivity. Qed.

Lemma without_trim c s : without c s -> without c (trim_space s).
Proof.
  unfold without. intros H Hin. apply H. destruct (trim_space_spec s) as (_ & a & b & _ & _ & E).
  rewrite E. apply in_or_app. right. apply in_or_app. now left.
Qed.

(** C65, first part *)
Lemma parse_name_both f l :
  trimmed f -> trimmed l -> without "," f -> without "," l -> without " " f -> without " " l ->
  parse_name (f ++ " " ++ l) = inl (mk_name l f) /\ parse_name (l ++ ", " ++ f) = inl (mk_name l f).
Proof.
  intros Tf Tl Cf Cl Sf Sl. unfold parse_name, parse_sep. split.
  - rewrite split_no.
    + change (f ++ " " ++ l) with (f ++ String " " l). rewrite split_app_l by assumption.
      now rewrite !trim_space_id.
    + unfold without in *. rewrite los_app. cbn. rewrite in_app_iff. cbn. intros [H|[H|H]]; try tauto. discriminate.
  - change (l ++ ", " ++ f) with (l ++ String "," (" " ++ f)).
    rewrite split_app_l; [|assumption|].
    + rewrite trim_drop_space. now rewrite !trim_space_id.
    + unfold without in *. cbn. intros [H|H]; [discriminate|tauto].
Qed.
(** C65, second part *)
Lemma parse_print_name s a b n :
  s = a ++ String "," b -> without "," a -> without "," b ->
  parse_name s = inl n -> nm_first n <> "" -> parse_name (full_name n) = inl n.
Proof.
  intros -> Ha Hb. unfold parse_name at 1, parse_sep. rewrite split_app_l by assumption.
  intros [= <-]. cbn [nm_first mk_name]. intros Hf. unfold full_name. cbn [nm_first nm_last mk_name].
  destruct (String.eqb_spec (trim_space b) "") as [E|_]; [contradiction|].
  change (trim_space a ++ ", " ++ trim_space b) with (trim_space a ++ String "," (" " ++ trim_space b)).
  unfold parse_name, parse_sep. rewrite split_app_l.
  - now rewrite trim_drop_space, !trim_space_idem.
  - now apply without_trim.
  - pose proof (without_trim _ _ Hb) as H. unfold without in *. cbn. intros [H'|H']; [discriminate|tauto].
Qed.
(** Exactly which inputs parse. *)
Lemma parse_name_iff s : (exists n, parse_name s = inl n) <->
  (exists a b, without "," a /\ without "," b /\ s = a ++ String "," b) \/
  (exists a b, without " " a /\ without " " b /\ s = a ++ String " " b).
Proof.
  unfold parse_name, parse_sep. split.
  - intros (n & H). destruct (split "," s) as [|a [|b [|c t]]] eqn:E.
    3:{ left. exists a, b. apply split_two in E. tauto. }
    all: destruct (split " " s) as [|a' [|b' [|c' t']]] eqn:E'; try discriminate;
         right; exists a', b'; apply split_two in E'; tauto.
  - intros [(a & b & Ha & Hb & ->)|(a & b & Ha & Hb & ->)].
    + rewrite split_app_l by assumption. eauto.
    + rewrite (split_app_l " ") by assumption.
      destruct (split "," (a ++ String " " b)) as [|x [|y [|z t]]]; eauto.
Qed.
(** Without the guard the round trip fails. *)
Lemma parse_print_name_refuted : exists s n, parse_name s = inl n /\ parse_name (full_name n) <> inl n.
Proof. exists "Smith,", (mk_name "Smith" ""). split; [reflexivity|]. vm_compute. discriminate. Qed.
