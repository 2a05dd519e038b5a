(** Theorems about the passwords kept (C128). *)
From Coq Require Import String Ascii ZArith NArith Lia Bool Arith List.
From stdpp Require Import gmap strings.
From RecordUpdate Require Import RecordSet.
From Verif Require Import GoStr Codec GoErr Types Env Fs Database System SpecDb SpecPersist SpecOutage SpecLedger SpecDrawer Examples.
From Verif Require Import AccountFacts DrawerFacts PropertiesPassword PropertiesPersist PropertiesLedger.
Import ListNotations.
Import RecordSetNotations.
Open Scope string_scope.

(** C128: every account keeps the thirteen passwords set last, the newest first: each as a hash, with the
    time at which it was set, and all but the newest as disabled and expired when the next one was set. *)
Theorem C128_kept E fs db l : register_typed E -> put_away E fs db l ->
  Forall2 (fun e u => u_username u = dw_name e /\ versions E None (firstn 13 (dw_phrases e)) (u_passwords u)) l (db_users db).
Proof. intros RT R. eapply Forall2_impl; [exact (proj1 (put_fits E fs db l RT R))|]. intros e u [A B]. auto. Qed.
Print Assumptions C128_kept.
(** The passwords set and the times and draws of their calls say which. *)
Theorem C128_one E t l ps ps' : versions E t l ps -> versions E t l ps' -> ps = ps'.
Proof.
  intros V. revert ps'. induction V as [t|t x p l ps H V IH]; intros ps' V'; inversion V' as [|? ? p' ? ps0 H' V0]; subst; [reflexivity|]. f_equal; [|auto].
  destruct H as [_ A (B1 & B2 & B3) C D], H' as [_ A' (B1' & B2' & B3') C' D'].
  destruct t; destruct D as (D1 & D2 & D3 & D4), D' as (D1' & D2' & D3' & D4'); destruct p, p'; cbn in *; congruence.
Qed.
Print Assumptions C128_one.
Theorem C128_determined E fs db fs' db' l : register_typed E -> put_away E fs db l -> put_away E fs' db' l -> map u_passwords (db_users db) = map u_passwords (db_users db').
Proof.
  intros RT R R'. pose proof (C128_kept E fs db l RT R) as F. pose proof (C128_kept E fs' db' l RT R') as F'. revert F F'. generalize (db_users db) (db_users db'). clear.
  intros us us' F. revert us'. induction F as [|e u l us [_ H] F IH]; intros us' F'; inversion F' as [|? u' ? us0 [_ H'] F0]; subst; [reflexivity|]. cbn [map].
  f_equal; [exact (C128_one _ _ _ _ _ H H')|auto].
Qed.
Print Assumptions C128_determined.
Theorem C128_reachable E fs db l : put_away E fs db l -> reachable E fs db.
Proof. exact (put_reachable E fs db l). Qed.
Print Assumptions C128_reachable.

(** Fourteen passwords are set for one account, of which thirteen are kept, and one for the other. *)
Definition flip (n : nat) : string := if Nat.even n then "secret-pw-1" else "new-secret-1".
Definition drawer_calls : list (Nd * Op * Request) :=
  two_calls ++ map (fun n => (draws (50 + n), OpChangePassword, change "jane" "jane@example.com" (flip n) (flip (S n)))) (seq 0 13).
Definition drawer_end : FS * Database := run toy start drawer_calls.
Definition drawer_ex : list Drawer :=
  [{| dw_name := "Jane"; dw_phrases := rev ({| ph_nd := draws 1; ph_text := "secret-pw-1" |} :: map (fun n => {| ph_nd := draws (50 + n); ph_text := flip (S n) |}) (seq 0 13)) |};
   {| dw_name := "bob"; dw_phrases := [{| ph_nd := draws 40; ph_text := "secret-pw-2" |}] |}].
Lemma drawer_ex_is : ledger_of (lay_in toy) start drawer_calls [] = drawer_ex.
Proof. vm_compute. reflexivity. Qed.
Lemma drawer_put : put_away toy drawer_end.1 drawer_end.2 drawer_ex.
Proof.
  assert (A : all_return start drawer_calls = true) by (vm_compute; reflexivity).
  pose proof (run_traced (lay_in toy) [] drawer_calls start [] (TrNew toy (lay_in toy) [] (draws 0) "db.json" ∅ _ _ (or_intror eq_refl) start_open) A) as R.
  rewrite drawer_ex_is in R. exact R.
Qed.
Example C128_ex : register_typed toy /\ put_away toy drawer_end.1 drawer_end.2 drawer_ex /\
  map (fun e => List.length (dw_phrases e)) drawer_ex = [14; 1]%nat /\ map (fun u => List.length (u_passwords u)) (db_users drawer_end.2) = [13; 1]%nat /\
  map (fun u => map pw_disabled (firstn 2 (u_passwords u))) (db_users drawer_end.2) = [[false; true]; [false]].
Proof. split; [exact toy_typed|]. split; [exact drawer_put|]. split; [reflexivity|]. split; vm_compute; reflexivity. Qed.
