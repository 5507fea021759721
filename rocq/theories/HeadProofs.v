(** Lemmas about header texts and titles. *)
From Verif Require Import Base MeltModel SiteModel SiteSpec TelegramProofs OutputModel OutputSpec OutputProofs HeadModel HeadSpec.
From Coq Require Import String Ascii.
Open Scope string_scope.
Open Scope nat_scope.
Open Scope list_scope.

Lemma without_cons : forall c d s, without c (String d s) <-> d <> c /\ without c s.
Proof.
  intros c d s. unfold without. split.
  - intros H. split; [intros ->; apply H; exists "", s; reflexivity|]. intros (a & b & E). apply H. exists (String d a), b. rewrite E. reflexivity.
  - intros [N H] (a & b & E). destruct a as [|x a]; cbn in E; [congruence|]. apply H. exists a, b. congruence.
Qed.
Lemma first_colon_iff : forall line k r, first_colon line = Some (k, r) <-> line = (k ++ ":" ++ r)%string /\ without ":" k.
Proof.
  induction line as [|c line IH]; intros k r; cbn [first_colon].
  - split; [discriminate|]. intros [H _]. destruct k; discriminate.
  - destruct (Ascii.eqb_spec c ":") as [->|N].
    + split.
      * intros H. assert (k = "") by congruence. assert (r = line) by congruence. subst. split; [reflexivity|]. intros (a & b & E). destruct a; discriminate.
      * intros [E W]. destruct k as [|d k]; cbn in E; [congruence|]. exfalso. apply without_cons in W as [W _]. congruence.
    + destruct (first_colon line) as [[k0 r0]|].
      * split.
        { intros H. assert (k = String c k0) by congruence. assert (r = r0) by congruence. subst.
          destruct (proj1 (IH k0 r0) eq_refl) as [-> W]. split; [reflexivity|]. apply without_cons. auto. }
        { intros [E W]. destruct k as [|d k]; cbn in E; [congruence|]. apply without_cons in W as [_ W].
          assert (X : line = (k ++ ":" ++ r)%string) by (cbn; congruence). pose proof (proj2 (IH k r) (conj X W)). congruence. }
      * split; [discriminate|]. intros [E W]. exfalso. destruct k as [|d k]; cbn in E; [congruence|]. apply without_cons in W as [_ W].
        assert (X : line = (k ++ ":" ++ r)%string) by (cbn; congruence). pose proof (proj2 (IH k r) (conj X W)). discriminate.
Qed.
Lemma entry_iff : forall line k v, entry line k v <-> exists r, first_colon line = Some (k, r) /\ strip r = v.
Proof.
  intros line k v. unfold entry. split.
  - intros (r & E & W & S). exists r. split; [apply first_colon_iff; auto|apply stripped_unique, S].
  - intros (r & F & <-). apply first_colon_iff in F as [E W]. exists r. split; [exact E|]. split; [exact W|apply strip_stripped].
Qed.
Lemma fold_lines : forall lines output k v, fold_left read_line lines output k = Some v <->
  (exists l1 line l2, lines = l1 ++ line :: l2 /\ entry line k v /\ forall other w, In other l2 -> ~ entry other k w) \/
  (output k = Some v /\ forall other w, In other lines -> ~ entry other k w).
Proof.
  induction lines as [|line lines IH]; intros output k v; cbn [fold_left].
  - split.
    + intros H. right. split; [exact H|intros o w []].
    + intros [(l1 & l & l2 & E & _)|[H _]]; [destruct l1; discriminate|exact H].
  - rewrite IH. unfold read_line at 1. split.
    + intros [(l1 & l & l2 & -> & A & B)|[H N]].
      * left. exists (line :: l1), l, l2. auto.
      * destruct (first_colon line) as [[key value]|] eqn:F.
        { destruct (String.eqb_spec k key) as [->|Nk].
          - left. exists [], line, lines. split; [reflexivity|]. split; [|exact N]. apply entry_iff. exists value. split; [exact F|congruence].
          - right. split; [exact H|]. intros o w [<-|I]; [|apply N, I]. intros X. apply entry_iff in X as (r & X & _). congruence. }
        { right. split; [exact H|]. intros o w [<-|I]; [|apply N, I]. intros X. apply entry_iff in X as (r & X & _). congruence. }
    + intros [(l1 & l & l2 & E & A & B)|[H N]].
      * destruct l1 as [|x l1].
        { cbn in E. assert (l = line) by congruence. assert (l2 = lines) by congruence. subst. right. split; [|exact B].
          apply entry_iff in A as (r & F & S). rewrite F, String.eqb_refl. congruence. }
        { cbn in E. assert (lines = l1 ++ l :: l2) by congruence. left. exists l1, l, l2. auto. }
      * right. split; [|intros o w I; apply N; right; exact I]. destruct (first_colon line) as [[key value]|] eqn:F; [|exact H].
        destruct (String.eqb_spec k key) as [->|Nk]; [|exact H]. exfalso. apply (N line (strip value)); [left; reflexivity|]. apply entry_iff. exists value. auto.
Qed.
Lemma hrd_iff : forall text k v, read_hrd text k = Some v <-> says text k v.
Proof.
  intros text k v. unfold read_hrd. rewrite fold_lines. unfold says. split.
  - intros [(l1 & l & l2 & E & A & B)|[H _]]; [|discriminate]. exists l1, l, l2. split; [|auto]. apply split_on_iff. exact E.
  - intros (l1 & l & l2 & E & A & B). left. exists l1, l, l2. split; [|auto]. apply split_on_iff in E. exact E.
Qed.

(** ** Capital letters *)
Lemma code_eq : forall c d, nat_of_ascii c = nat_of_ascii d -> c = d.
Proof. intros c d H. rewrite <- (ascii_nat_embedding c), <- (ascii_nat_embedding d), H. reflexivity. Qed.
Lemma capital_iff : forall c d, upper_ascii c = d <-> capital_of c d.
Proof.
  intros c d. unfold upper_ascii, capital_of. pose proof (nat_ascii_bounded c) as B.
  destruct (Nat.leb_spec 97 (nat_of_ascii c)), (Nat.leb_spec (nat_of_ascii c) 122); cbn [andb].
  2-4: split; [intros <-; right; split; [lia|reflexivity]|intros [[? _]|[_ ->]]; [lia|reflexivity]].
  split.
  - intros <-. left. split; [lia|]. rewrite nat_ascii_embedding by lia. lia.
  - intros [[_ E]|[N _]]; [|lia]. apply code_eq. rewrite nat_ascii_embedding by lia. lia.
Qed.
Lemma small_iff : forall c d, lower_ascii c = d <-> small_of c d.
Proof.
  intros c d. unfold lower_ascii, small_of. pose proof (nat_ascii_bounded c) as B.
  destruct (Nat.leb_spec 65 (nat_of_ascii c)), (Nat.leb_spec (nat_of_ascii c) 90); cbn [andb].
  2-4: split; [intros <-; right; split; [lia|reflexivity]|intros [[? _]|[_ ->]]; [lia|reflexivity]].
  split.
  - intros <-. left. split; [lia|]. rewrite nat_ascii_embedding by lia. lia.
  - intros [[_ E]|[N _]]; [|lia]. apply code_eq. rewrite nat_ascii_embedding by lia. lia.
Qed.
Lemma small_text_iff : forall s t, lower s = t <-> small_text s t.
Proof.
  induction s as [|c s IH]; intros t; cbn [lower].
  - split; [intros <-; constructor|]. intros H. inversion H. reflexivity.
  - split.
    + intros <-. constructor; [apply small_iff; reflexivity|apply IH; reflexivity].
    + intros H. inversion H as [|? ? ? ? C T]; subst. apply small_iff in C. apply IH in T. congruence.
Qed.
Lemma capitalized_iff : forall s t, capitalize s = t <-> capitalized s t.
Proof.
  intros [|c s] t; cbn [capitalize].
  - split; [intros <-; constructor|]. intros H. inversion H. reflexivity.
  - split.
    + intros <-. constructor; [apply capital_iff; reflexivity|apply small_text_iff; reflexivity].
    + intros H. inversion H as [|? ? ? ? C T]; subst. apply capital_iff in C. apply small_text_iff in T. congruence.
Qed.
