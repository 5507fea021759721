(** Common vocabulary: exceptions as values, masked values, images, and generic
    list lemmas.  No property is stated here. *)
From Coq Require Export List Bool Arith ZArith NArith QArith Lia.
From Coq Require Export Permutation Sorted.
Export ListNotations.
(* nat notations by default: every file opens Z or Q scope itself. *)
Open Scope nat_scope.

(** Python exceptions that the modelled functions raise (exceptions.py and the
    built-in ones). *)
Inductive exn : Type :=
| ValueError | IndexError | KeyError | TypeError | RuntimeError
| NotImplementedError | ValidTimeStampError | InvalidSourceFileError | OSError
| AttributeError | DisdrometerDataError | StopIteration | ZeroDivisionError
| InconsistentDataError
| ModelDataError | RadarDataError | LidarDataError.

(** Result of a call that may raise. *)
Inductive result (A : Type) : Type :=
| Ok : A -> result A
| Raise : exn -> result A.
Arguments Ok {A} _.
Arguments Raise {A} _.

Definition bind {A B} (r : result A) (f : A -> result B) : result B :=
  match r with Ok a => f a | Raise e => Raise e end.

(** A masked scalar of numpy.ma: [None] is a masked value. *)
Notation masked := option (only parsing).

Definition is_masked {A} (x : masked A) : bool :=
  match x with None => true | Some _ => false end.

(** 2-D arrays: a list of profiles (axis 0 = time), each a list of gates
    (axis 1 = height). *)
Definition image (A : Type) := list (list A).

Definition imap {A B} (f : A -> B) (m : image A) : image B := map (map f) m.

(** Pixel of an image. *)
Definition pixel {A} (m : image A) (i j : nat) : option A :=
  match nth_error m i with None => None | Some row => nth_error row j end.

(** [a[mask] = v] at one pixel. *)
Definition assign {A} (mask : bool) (v old : A) : A := if mask then v else old.

Lemma nth_error_map' {A B} (f : A -> B) l i :
  nth_error (map f l) i = option_map f (nth_error l i).
Proof. revert i; induction l as [|a l IH]; intros [|i]; simpl; auto. Qed.

Lemma pixel_imap {A B} (f : A -> B) m i j :
  pixel (imap f m) i j = option_map f (pixel m i j).
Proof.
  unfold pixel, imap. rewrite nth_error_map'.
  destruct (nth_error m i) as [row|]; simpl; [apply nth_error_map'|reflexivity].
Qed.

Lemma imap_imap {A B C} (f : A -> B) (g : B -> C) m :
  imap g (imap f m) = imap (fun x => g (f x)) m.
Proof.
  unfold imap. rewrite map_map. apply map_ext. intros r. apply map_map.
Qed.

Lemma imap_ext {A B} (f g : A -> B) m : (forall x, f x = g x) -> imap f m = imap g m.
Proof. intros H. unfold imap. apply map_ext. intros r. apply map_ext. exact H. Qed.

Lemma imap_id {A} (m : image A) : imap (fun x => x) m = m.
Proof.
  unfold imap. rewrite <- (map_id m) at 2. apply map_ext. intros r. apply map_id.
Qed.

Lemma length_imap {A B} (f : A -> B) m : length (imap f m) = length m.
Proof. apply map_length. Qed.

(** List equality from pointwise equality. *)
Lemma nth_error_ext {A} (l1 l2 : list A) :
  (forall i, nth_error l1 i = nth_error l2 i) -> l1 = l2.
Proof.
  revert l2. induction l1 as [|a l1 IH]; intros l2 H.
  - destruct l2 as [|b l2]; [reflexivity|]. specialize (H 0). discriminate.
  - destruct l2 as [|b l2]; [specialize (H 0); discriminate|].
    pose proof (H 0) as H0. simpl in H0. injection H0 as ->. f_equal.
    apply IH. intros i. exact (H (S i)).
Qed.

Lemma nth_error_Some_lt {A} (l : list A) i x : nth_error l i = Some x -> i < length l.
Proof. intros H. apply nth_error_Some. rewrite H. discriminate. Qed.

Lemma nth_error_lt_Some {A} (l : list A) i : i < length l -> exists x, nth_error l i = Some x.
Proof.
  intros H. destruct (nth_error l i) as [x|] eqn:E; [eauto|].
  apply nth_error_None in E. lia.
Qed.
