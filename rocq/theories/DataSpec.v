(** Specification of the Kanji tables. *)
From Verif Require Export DataModel.
From Verif Require Import MapProofs.
Open Scope N_scope.

(** the Kanji that are kept from a sequence of insertions: the first one of each name *)
Fixpoint accepted_from (seen : list bytes) (ks : list Kanji) : list Kanji :=
  match ks with
  | [] => []
  | k :: r => if existsb (beq (kName k)) seen then accepted_from seen r
              else k :: accepted_from (kName k :: seen) r
  end.
Definition accepted (ks : list Kanji) : list Kanji := accepted_from [] ks.

(** the name has a variation selector *)
Definition selected_name (k : Kanji) : bool := match variant k with Val b => b | _ => false end.
(** a Kanji with a variation selector shown as [s] by fonts without selectors *)
Definition variant_of (s : bytes) (k : Kanji) : bool := selected_name k && beq (compatibilityName k) s.

(** the part of a frequency list in each of the ten buckets *)
Definition bucket_of {A} (b : N) (l : list A) : list A :=
  if b <? 9 then firstn (N.to_nat 250) (skipn (N.to_nat (250 * b)) l) else skipn (N.to_nat 2250) l.

(** what the tables hold before the frequency list [l] is processed: no entry is in the
    frequency table, and every Kanji found for a name of the list is that Kanji and has its
    place in the list as frequency *)
Definition ready (d : Data) (l : list bytes) : Prop :=
  msorted (dNames d)
  /\ dFreqs d = repeat [] (N.to_nat 10)
  /\ dMax d <= len l + 1
  /\ (forall i s, nth_error l i = Some s -> mfind s (dCompat d) = None
        /\ forall k, mfind s (dNames d) = Some k -> kName k = s /\ kFrequency k = N.of_nat i + 1).
(** the Kanji made for a name that is not there yet has that name and frequency *)
Definition makes (make : N -> bytes -> out Kanji) (d : Data) (l : list bytes) : Prop :=
  forall i s, nth_error l i = Some s -> mfind s (dNames d) = None ->
  exists k, make (N.of_nat i + 1) s = Val k /\ kName k = s /\ kFrequency k = N.of_nat i + 1.
