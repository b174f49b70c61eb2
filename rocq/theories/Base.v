(** Common vocabulary of the model: byte strings, Python text, exceptions as
    values, and Python-like list helpers.  Nothing in this file is specific to
    sigstore-python except the exception hierarchy. *)
From Coq Require Export List Bool ZArith NArith Lia Arith.
From Coq Require Export Init.Byte.
From Coq Require Strings.Byte Strings.String Strings.Ascii.
Export ListNotations.

(** ** Bytes and text *)

(** Python [bytes]. *)
Definition bytes := list byte.

(** Python [str]: the list of its code points. *)
Definition str := list N.

Definition b2n (b : byte) : N := Byte.to_N b.
Definition n2b (n : N) : byte :=
  match Byte.of_N (n mod 256) with Some b => b | None => x00 end.

Lemma b2n_lt : forall b, (b2n b < 256)%N.
Proof. intro b; destruct b; vm_compute; reflexivity. Qed.

Lemma n2b_b2n : forall b, n2b (b2n b) = b.
Proof. intro b; destruct b; vm_compute; reflexivity. Qed.

Lemma b2n_n2b : forall n, (n < 256)%N -> b2n (n2b n) = n.
Proof.
  intros n Hn. unfold n2b, b2n.
  rewrite N.mod_small by assumption.
  destruct (Byte.of_N n) as [b|] eqn:E.
  - apply Byte.to_of_N; assumption.
  - apply Byte.of_N_None_iff in E. lia.
Qed.

Lemma b2n_inj : forall a b, b2n a = b2n b -> a = b.
Proof. intros a b H. rewrite <- (n2b_b2n a), <- (n2b_b2n b), H. reflexivity. Qed.

Lemma b2n_n2b_mod : forall n, b2n (n2b n) = (n mod 256)%N.
Proof.
  intros n. rewrite <- (b2n_n2b (n mod 256)) by (apply N.mod_lt; lia).
  unfold n2b. rewrite N.mod_mod by lia. reflexivity.
Qed.

(** A Coq string literal as Python text (ASCII only, which is all we use it for). *)
Fixpoint s2l (s : String.string) : str :=
  match s with
  | String.EmptyString => nil
  | String.String c r => Ascii.N_of_ascii c :: s2l r
  end.

(** A Coq string literal as a Python bytes literal. *)
Fixpoint s2b (s : String.string) : bytes :=
  match s with
  | String.EmptyString => nil
  | String.String c r => Ascii.byte_of_ascii c :: s2b r
  end.

(** ** Boolean equality *)

Fixpoint list_eqb {A} (eqb : A -> A -> bool) (a b : list A) : bool :=
  match a, b with
  | nil, nil => true
  | x :: a', y :: b' => eqb x y && list_eqb eqb a' b'
  | _, _ => false
  end.

Lemma list_eqb_spec {A} (eqb : A -> A -> bool) :
  (forall x y, eqb x y = true <-> x = y) ->
  forall a b, list_eqb eqb a b = true <-> a = b.
Proof.
  intros H a. induction a as [|x a IH]; intros [|y b]; simpl;
    try (split; [discriminate || reflexivity | discriminate || reflexivity]).
  rewrite andb_true_iff, H, IH. split.
  - intros [-> ->]; reflexivity.
  - intros E; inversion E; auto.
Qed.

Definition byte_eqb (a b : byte) : bool := N.eqb (b2n a) (b2n b).
Lemma byte_eqb_spec : forall a b, byte_eqb a b = true <-> a = b.
Proof.
  intros a b. unfold byte_eqb. rewrite N.eqb_eq. split.
  - apply b2n_inj.
  - intros ->; reflexivity.
Qed.

Definition bytes_eqb : bytes -> bytes -> bool := list_eqb byte_eqb.
Lemma bytes_eqb_spec : forall a b, bytes_eqb a b = true <-> a = b.
Proof. apply list_eqb_spec, byte_eqb_spec. Qed.
Lemma bytes_eqb_refl : forall a, bytes_eqb a a = true.
Proof. intro a; apply bytes_eqb_spec; reflexivity. Qed.
Lemma bytes_eqb_false : forall a b, bytes_eqb a b = false <-> a <> b.
Proof.
  intros a b. rewrite <- not_true_iff_false, bytes_eqb_spec. reflexivity.
Qed.

Definition str_eqb : str -> str -> bool := list_eqb N.eqb.
Lemma str_eqb_spec : forall a b, str_eqb a b = true <-> a = b.
Proof. apply list_eqb_spec. intros; apply N.eqb_eq. Qed.
Lemma str_eqb_refl : forall a, str_eqb a a = true.
Proof. intro a; apply str_eqb_spec; reflexivity. Qed.
Lemma str_eqb_false : forall a b, str_eqb a b = false <-> a <> b.
Proof.
  intros a b. rewrite <- not_true_iff_false, str_eqb_spec. reflexivity.
Qed.

Lemma bytes_eq_dec : forall a b : bytes, {a = b} + {a <> b}.
Proof.
  intros a b. destruct (bytes_eqb a b) eqn:E.
  - left; apply bytes_eqb_spec; assumption.
  - right; apply bytes_eqb_false; assumption.
Defined.

Definition opt_eqb {A} (eqb : A -> A -> bool) (a b : option A) : bool :=
  match a, b with
  | None, None => true
  | Some x, Some y => eqb x y
  | _, _ => false
  end.

Lemma opt_eqb_spec {A} (eqb : A -> A -> bool) :
  (forall x y, eqb x y = true <-> x = y) ->
  forall a b, opt_eqb eqb a b = true <-> a = b.
Proof.
  intros H [x|] [y|]; simpl; try (split; congruence).
  rewrite H. split; congruence.
Qed.

(** ** Exceptions as values

    One constructor per exception class that the modelled code raises or
    catches.  [EBackend n] stands for any other exception class raised by a
    third-party library.  Messages are not modelled. *)
Inductive exn : Set :=
| EError                (* sigstore.errors.Error             errors.py:25 *)
| ENetwork              (* NetworkError(Error)               errors.py:52 *)
| ETUF                  (* TUFError(Error)                   errors.py:78 *)
| EMetadata             (* MetadataError(Error)              errors.py:106 *)
| ERoot                 (* RootError(Error)                  errors.py:114 *)
| EVerification         (* VerificationError(Error)          errors.py:125 *)
| ECertValidation       (* CertValidationError(VerificationError) errors.py:131 *)
| EInvalidBundle        (* InvalidBundle(Error)              models.py:307 *)
| EIncompatibleEntry    (* IncompatibleEntry(InvalidBundle)  models.py:328 *)
| EInvalidEnvelope      (* InvalidEnvelope(Error)            dsse/__init__.py:187 *)
| EIdentity             (* IdentityError(Error)              oidc.py:369 *)
| EExpiredIdentity      (* ExpiredIdentity(Exception)        oidc.py:60 *)
| EIssuer               (* IssuerError(Exception)            oidc.py:226 *)
| ERekorClient          (* RekorClientError(Exception)       rekor/__init__.py:43 *)
| EExpiredCertificate   (* ExpiredCertificate(Exception)     fulcio/client.py:46 *)
| EFulcioClient         (* FulcioClientError(Exception)      fulcio/client.py:65 *)
| ETimestamp            (* TimestampError(Exception)         timestamp.py:56 *)
| EInvalidSignature     (* cryptography.exceptions.InvalidSignature *)
| EUnsupportedAlgorithm (* cryptography.exceptions.UnsupportedAlgorithm *)
| EExtensionNotFound    (* cryptography.x509.ExtensionNotFound *)
| EValue                (* ValueError *)
| EBinascii             (* binascii.Error(ValueError) *)
| EUnicodeDecode        (* UnicodeDecodeError(ValueError) *)
| EUnicodeEncode        (* UnicodeEncodeError(ValueError) *)
| EPydantic             (* pydantic.ValidationError(ValueError) *)
| EStruct               (* struct.error *)
| EKey                  (* KeyError *)
| EIndex                (* IndexError *)
| EType                 (* TypeError *)
| EAttribute            (* AttributeError *)
| EOverflow             (* OverflowError *)
| EAssertion            (* AssertionError *)
| EFileNotFound         (* FileNotFoundError *)
| ESystemExit (n : nat) (* SystemExit with an exit status *)
| EBackend (n : nat).   (* anything else raised by a third party *)

(** [isinstance(e, sigstore.errors.VerificationError)] *)
Definition is_verification_error (e : exn) : bool :=
  match e with EVerification | ECertValidation => true | _ => false end.

(** [isinstance(e, sigstore.errors.Error)] *)
Definition is_sigstore_error (e : exn) : bool :=
  match e with
  | EError | ENetwork | ETUF | EMetadata | ERoot | EVerification
  | ECertValidation | EInvalidBundle | EIncompatibleEntry | EInvalidEnvelope
  | EIdentity => true
  | _ => false
  end.

(** [isinstance(e, ValueError)] *)
Definition is_value_error (e : exn) : bool :=
  match e with
  | EValue | EBinascii | EUnicodeDecode | EUnicodeEncode | EPydantic => true
  | _ => false
  end.

(** [isinstance(e, InvalidBundle)] *)
Definition is_invalid_bundle (e : exn) : bool :=
  match e with EInvalidBundle | EIncompatibleEntry => true | _ => false end.

(** Result of running a Python expression or statement. *)
Inductive res (A : Type) : Type :=
| Ok (a : A)
| Raise (e : exn).
Arguments Ok {A} a.
Arguments Raise {A} e.

Definition bind {A B} (m : res A) (f : A -> res B) : res B :=
  match m with Ok a => f a | Raise e => Raise e end.

Notation "'let*' x := m 'in' k" := (bind m (fun x => k))
  (at level 200, x name, m at level 100, k at level 200, right associativity).
Notation "'let*' ' p := m 'in' k" := (bind m (fun p => k))
  (at level 200, p strict pattern, m at level 100, k at level 200, right associativity).
Notation "'do*' m 'in' k" := (bind m (fun _ => k))
  (at level 200, m at level 100, k at level 200, right associativity).

(** [if cond: raise e] *)
Definition raise_if (c : bool) (e : exn) : res unit :=
  if c then Raise e else Ok tt.

(** [try: m except <class>: h e] *)
Definition try_except {A} (m : res A) (cls : exn -> bool) (h : exn -> res A) : res A :=
  match m with
  | Ok a => Ok a
  | Raise e => if cls e then h e else Raise e
  end.

(** [except Exception].  Simplified: SystemExit is not an [Exception] in Python; here, one raised by a third-party
    library would be caught too (see Calm.v). *)
Definition any_exn (_ : exn) : bool := true.

Definition exn_eqb (a b : exn) : bool :=
  match a, b with
  | EError, EError | ENetwork, ENetwork | ETUF, ETUF | EMetadata, EMetadata
  | ERoot, ERoot | EVerification, EVerification | ECertValidation, ECertValidation
  | EInvalidBundle, EInvalidBundle | EIncompatibleEntry, EIncompatibleEntry
  | EInvalidEnvelope, EInvalidEnvelope | EIdentity, EIdentity
  | EExpiredIdentity, EExpiredIdentity | EIssuer, EIssuer
  | ERekorClient, ERekorClient | EExpiredCertificate, EExpiredCertificate
  | EFulcioClient, EFulcioClient | ETimestamp, ETimestamp
  | EInvalidSignature, EInvalidSignature
  | EUnsupportedAlgorithm, EUnsupportedAlgorithm
  | EExtensionNotFound, EExtensionNotFound | EValue, EValue
  | EBinascii, EBinascii | EUnicodeDecode, EUnicodeDecode
  | EUnicodeEncode, EUnicodeEncode | EPydantic, EPydantic | EStruct, EStruct
  | EKey, EKey | EIndex, EIndex | EType, EType | EAttribute, EAttribute
  | EOverflow, EOverflow | EAssertion, EAssertion
  | EFileNotFound, EFileNotFound => true
  | ESystemExit n, ESystemExit m => Nat.eqb n m
  | EBackend n, EBackend m => Nat.eqb n m
  | _, _ => false
  end.

Lemma exn_eqb_spec : forall a b, exn_eqb a b = true <-> a = b.
Proof.
  intros a b; destruct a, b; simpl; try (split; [discriminate|intro H; inversion H]);
    try (split; reflexivity);
  (rewrite Nat.eqb_eq; split; [intros ->; reflexivity | intro H; inversion H; reflexivity]).
Qed.

Lemma bind_ok_inv {A B} (m : res A) (f : A -> res B) (b : B) :
  bind m f = Ok b -> exists a, m = Ok a /\ f a = Ok b.
Proof. destruct m as [a|e]; simpl; intros H; [exists a; auto | discriminate]. Qed.

Lemma bind_raise_inv {A B} (m : res A) (f : A -> res B) e :
  bind m f = Raise e -> m = Raise e \/ exists a, m = Ok a /\ f a = Raise e.
Proof.
  destruct m as [a|e']; simpl; intros H; [right; exists a; auto | left; congruence].
Qed.

Lemma raise_if_ok : forall c e u, raise_if c e = Ok u -> c = false.
Proof. intros [|] e u; simpl; congruence. Qed.

Lemma raise_if_false : forall e, raise_if false e = Ok tt.
Proof. reflexivity. Qed.

Lemma raise_if_raise : forall c e e', raise_if c e = Raise e' -> c = true /\ e' = e.
Proof. intros [|] e e'; simpl; intros H; inversion H; auto. Qed.

(** Split a successful or failed monadic computation. *)
Ltac inv_bind H :=
  let a := fresh "a" in
  let Ha := fresh "Ha" in
  apply bind_ok_inv in H; destruct H as [a [Ha H]].

(** ** Python list helpers *)

(** [for x in l: body x] where the body may raise. *)
Fixpoint for_each {A} (body : A -> res unit) (l : list A) : res unit :=
  match l with
  | nil => Ok tt
  | x :: l' => do* body x in for_each body l'
  end.

Lemma for_each_ok {A} (body : A -> res unit) (l : list A) :
  for_each body l = Ok tt <-> (forall x, In x l -> body x = Ok tt).
Proof.
  induction l as [|x l IH]; simpl.
  - split; [intros _ y [] | reflexivity].
  - split.
    + intros H. inv_bind H. destruct a. intros y [->|Hy]; [assumption|].
      apply IH; assumption.
    + intros H. rewrite (H x (or_introl eq_refl)). simpl. apply IH.
      intros y Hy; apply H; right; assumption.
Qed.

(** List comprehension whose body may raise. *)
Fixpoint map_res {A B} (f : A -> res B) (l : list A) : res (list B) :=
  match l with
  | nil => Ok nil
  | x :: l' => let* y := f x in let* ys := map_res f l' in Ok (y :: ys)
  end.

Lemma map_res_ok {A B} (f : A -> res B) (l : list A) (r : list B) :
  map_res f l = Ok r <-> Forall2 (fun x y => f x = Ok y) l r.
Proof.
  revert r. induction l as [|x l IH]; simpl; intros r; split; intros H.
  - inversion H; subst; constructor.
  - inversion H; reflexivity.
  - inv_bind H. inv_bind H. inversion H; subst. constructor; auto. apply IH; assumption.
  - inversion H; subst. rewrite H2. simpl. apply IH in H4. rewrite H4. reflexivity.
Qed.

Lemma map_res_length {A B} (f : A -> res B) (l : list A) (r : list B) :
  map_res f l = Ok r -> length r = length l.
Proof. intros H; apply map_res_ok in H. induction H; simpl; congruence. Qed.

(** [l[i]] for a non-negative literal index. *)
Definition index_list {A} (l : list A) (i : nat) : res A :=
  match nth_error l i with Some x => Ok x | None => Raise EIndex end.

(** Association-list lookup, the model of a Python [dict] lookup. *)
Fixpoint assoc {K V} (eqb : K -> K -> bool) (k : K) (l : list (K * V)) : option V :=
  match l with
  | nil => None
  | (k', v) :: l' => if eqb k k' then Some v else assoc eqb k l'
  end.

(** [d[k] = v] on an insertion-ordered dict. *)
Fixpoint dict_set {K V} (eqb : K -> K -> bool) (k : K) (v : V) (l : list (K * V)) : list (K * V) :=
  match l with
  | nil => (k, v) :: nil
  | (k', v') :: l' => if eqb k k' then (k', v) :: l' else (k', v') :: dict_set eqb k v l'
  end.

Lemma assoc_dict_set_same {K V} (eqb : K -> K -> bool) :
  (forall x y, eqb x y = true <-> x = y) ->
  forall k (v : V) l, assoc eqb k (dict_set eqb k v l) = Some v.
Proof.
  intros H k v l. induction l as [|[k' v'] l IH]; simpl.
  - replace (eqb k k) with true; [reflexivity|]. symmetry; apply H; reflexivity.
  - destruct (eqb k k') eqn:E; simpl; rewrite E; [reflexivity|assumption].
Qed.

Lemma assoc_dict_set_other {K V} (eqb : K -> K -> bool) :
  (forall x y, eqb x y = true <-> x = y) ->
  forall k k' (v : V) l, k <> k' -> assoc eqb k (dict_set eqb k' v l) = assoc eqb k l.
Proof.
  intros H k k' v l Hne. induction l as [|[k2 v2] l IH]; simpl.
  - destruct (eqb k k') eqn:E; [apply H in E; contradiction|reflexivity].
  - destruct (eqb k' k2) eqn:E; simpl.
    + apply H in E; subst. destruct (eqb k k2) eqn:E2; [apply H in E2; congruence|reflexivity].
    + destruct (eqb k k2); [reflexivity|assumption].
Qed.

Lemma app_inj_length {A} (a b c d : list A) :
  length a = length c -> a ++ b = c ++ d -> a = c /\ b = d.
Proof.
  revert c. induction a as [|x a IH]; intros [|y c] L H; simpl in *; try discriminate.
  - auto.
  - inversion H; subst. injection L as L. destruct (IH _ L H2) as [-> ->]. auto.
Qed.

Lemma app_inj_length_r {A} (a b c d : list A) :
  length b = length d -> a ++ b = c ++ d -> a = c /\ b = d.
Proof.
  intros L H. apply app_inj_length; [|assumption].
  apply (f_equal (@length A)) in H. rewrite !app_length in H. lia.
Qed.

(** String literals, without the names of [Strings.String]. *)
Export (notations) Strings.String.
Global Arguments s2l _%string_scope.
Global Arguments s2b _%string_scope.
