(** What a WebAuthn message in JSON means, stated on the parsed tree without the readers of
    [WebAuthn.v].  A field takes its value from all members whose name equals the field's name
    ignoring case; later members prevail. *)
From Coq Require Import String Ascii ZArith NArith Lia Bool Arith List.
From stdpp Require Import gmap strings.
From Verif Require Import GoStr Utf8 Codec Json Env Persist WebAuthn.
Import ListNotations.
Open Scope string_scope.

Definition members := list (string * json).
(** The values of the members for field [n], in order. *)
Definition vals (m : members) (n : string) : list json :=
  map snd (List.filter (fun kv => String.eqb (fold_key n) (fold_key (fst kv))) m).
(** The values of the members named exactly [k]. *)
Definition exactly (m : members) (k : string) : list json :=
  map snd (List.filter (fun kv => String.eqb k (fst kv)) m).

(** ** Fields *)
(** A text: every value is a string or null; the last string counts. *)
Inductive text_of (m : members) (n s : string) : Prop :=
  | TextOf : Forall (fun v => v = JNull \/ exists t, v = JStr t) (vals m n) ->
      s = List.last (flat_map (fun v => match v with JStr t => [t] | _ => [] end) (vals m n)) "" -> text_of m n s.
Inductive flag_of (m : members) (n : string) (b : bool) : Prop :=
  | FlagOf : Forall (fun v => v = JNull \/ exists t, v = JBool t) (vals m n) ->
      b = List.last (flat_map (fun v => match v with JBool t => [t] | _ => [] end) (vals m n)) false -> flag_of m n b.
(** An unsigned number below [bound], written in decimal digits only. *)
Definition uint_lit (bound : N) (s : string) (n : N) : Prop :=
  s <> "" /\ Forall (fun a => is_digit a = true) (los s) /\ n = dec_val_l (los s) 0 /\ (n < bound)%N.
Inductive uint_vals (bound : N) : list json -> N -> Prop :=
  | UintNone : uint_vals bound [] 0
  | UintNull vs n : uint_vals bound vs n -> uint_vals bound (vs ++ [JNull]) n
  | UintNum vs n0 s n : uint_vals bound vs n0 -> uint_lit bound s n -> uint_vals bound (vs ++ [JNum s]) n.
(** A pointer to a struct whose members read by [R]: null clears it, objects are merged. *)
Inductive merged {A} (R : members -> A -> Prop) : list json -> option members -> Prop :=
  | MgNone : merged R [] None
  | MgNull vs x : merged R vs x -> merged R (vs ++ [JNull]) None
  | MgObj vs x m a : merged R vs x -> R (default [] x ++ m)%list a -> merged R (vs ++ [JObj m]) (Some (default [] x ++ m)%list).
Inductive ptr_vals {A} (R : members -> A -> Prop) (vs : list json) : option A -> Prop :=
  | PtrNil : merged R vs None -> ptr_vals R vs None
  | PtrTo m a : merged R vs (Some m) -> R m a -> ptr_vals R vs (Some a).
(** A list of texts: null clears it, an array replaces it; a null element keeps the text that was at its place. *)
Inductive texts_vals : list json -> list string -> Prop :=
  | TxNone : texts_vals [] []
  | TxNull vs l : texts_vals vs l -> texts_vals (vs ++ [JNull]) []
  | TxArr vs l js l' : texts_vals vs l -> List.length l' = List.length js ->
      (forall i j, nth_error js i = Some j -> (exists s, j = JStr s /\ nth_error l' i = Some s) \/ (j = JNull /\ nth_error l' i = Some (nth i l ""))) ->
      texts_vals (vs ++ [JArr js]) l'.
(** A map: null clears it, objects are merged; the last member with a name counts.  [V j v]: the value [j] reads as [v]. *)
Inductive map_vals {A} (V : json -> A -> Prop) : list json -> option (gmap string A) -> Prop :=
  | MvNone : map_vals V [] None
  | MvNull vs x : map_vals V vs x -> map_vals V (vs ++ [JNull]) None
  | MvObj vs x ms y : map_vals V vs x -> Forall (fun kv => exists v, V (snd kv) v) ms ->
      (forall k, match rev (exactly ms k) with [] => y !! k = default ∅ x !! k | j :: _ => exists v, V j v /\ y !! k = Some v end) ->
      map_vals V (vs ++ [JObj ms]) (Some y).
Inductive flag_value : json -> bool -> Prop := FvNull : flag_value JNull false | FvBool b : flag_value (JBool b) b.
(** No number in [j] exceeds the range of float64. *)
Inductive in_range64 : json -> Prop :=
  | RgNull : in_range64 JNull | RgBool b : in_range64 (JBool b) | RgStr s : in_range64 (JStr s)
  | RgNum s z : parse_float s = Some z -> in_range64 (JNum s)
  | RgArr l : Forall in_range64 l -> in_range64 (JArr l)
  | RgObj m : Forall (fun kv => in_range64 (snd kv)) m -> in_range64 (JObj m).
Inductive any_value : json -> Jv -> Prop :=
  | AvNum s z : parse_float s = Some z -> any_value (JNum s) (VNum z)
  | AvStr s : any_value (JStr s) (VStr s)
  | AvOther j : in_range64 j -> (forall s, j <> JNum s /\ j <> JStr s) -> any_value j VOther.

(** ** Messages *)
Definition is_int_lit (v : json) : Prop := v = JNull \/ exists s z, v = JNum s /\ parse_int s = Some z /\ (- 2 ^ 63 <= z < 2 ^ 63)%Z.
Definition is_text (m : members) (n : string) : Prop := Forall (fun v => v = JNull \/ exists t, v = JStr t) (vals m n).
Definition is_flag (m : members) (n : string) : Prop := Forall (fun v => v = JNull \/ exists t, v = JBool t) (vals m n).
Definition is_texts (m : members) (n : string) : Prop :=
  Forall (fun v => v = JNull \/ exists l, v = JArr l /\ Forall (fun j => j = JNull \/ exists s, j = JStr s) l) (vals m n).
(** a member that is only checked: null or an object whose members satisfy [P] *)
Definition is_obj (P : members -> Prop) (m : members) (n : string) : Prop := Forall (fun v => v = JNull \/ exists ms, v = JObj ms /\ P ms) (vals m n).

Definition client_data (m : members) (c : ClientData) : Prop :=
  text_of m "challenge" (cl_challenge c) /\ flag_of m "crossOrigin" (cl_cross c) /\ is_text m "origin" /\ text_of m "type" (cl_type c).
Definition credential_data (m : members) (c : CredentialData) : Prop :=
  is_text m "aaguid" /\ is_text m "credentialId" /\ map_vals any_value (vals m "publicKey") (cd_pubkey c).
Definition auth_data (m : members) (d : AuthData) : Prop :=
  text_of m "rpIdHash" (ad_rpid d) /\ map_vals flag_value (vals m "flags") (ad_flags d) /\
  uint_vals (2 ^ 32) (vals m "signatureCounter") (ad_counter d) /\ Forall in_range64 (vals m "extensions") /\
  ptr_vals credential_data (vals m "credentialData") (ad_cred d).
Definition statement_ok (m : members) : Prop := Forall is_int_lit (vals m "alg") /\ is_text m "sig" /\ is_texts m "x5c".
Definition attestation (m : members) (a : AttestationObject) : Prop :=
  is_obj statement_ok m "attStmt" /\ ptr_vals auth_data (vals m "authData") (ao_auth a) /\ is_text m "fmt".
Definition device_ok (m : members) : Prop := is_text m "name" /\ is_text m "type".
Definition client_ok (m : members) : Prop := exists c, client_data m c.
Definition auth_ok (m : members) : Prop := exists d, auth_data m d.
Definition registration (m : members) (r : RegisterRequest) : Prop :=
  text_of m "id" (wr_id r) /\ text_of m "type" (wr_type r) /\ texts_vals (vals m "transports") (wr_transports r) /\ is_flag m "success" /\
  ptr_vals attestation (vals m "attestationObject") (wr_att r) /\ is_obj client_ok m "clientData" /\ is_obj device_ok m "device".
Definition request (m : members) (q : AuthRequest) : Prop :=
  text_of m "id" (wq_id q) /\ is_text m "type" /\ is_obj auth_ok m "auth_data" /\ text_of m "auth_data_encoded" (wq_auth q) /\
  is_obj client_ok m "client_data" /\ text_of m "client_data_encoded" (wq_client q) /\ is_text m "signature" /\ text_of m "signature_encoded" (wq_sig q).
(** A text is a message: a JSON object read by [R], or null, read as an object without members. *)
Definition message_text {A} (R : members -> A -> Prop) (s : string) (a : A) : Prop :=
  exists m, (parse (los s) = Some (JObj m) \/ (parse (los s) = Some JNull /\ m = [])) /\ R m a.
(** All numbers of a JSON value. *)
Fixpoint json_nums (j : json) : list string :=
  match j with
  | JNum s => [s]
  | JArr l => flat_map json_nums l
  | JObj m => flat_map (fun kv => json_nums (snd kv)) m
  | _ => []
  end.
