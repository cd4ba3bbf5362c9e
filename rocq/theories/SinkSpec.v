(** What is expected of an output on a disk that may fail. *)
From Verif Require Import Base Sink.

Definition beginning (a b : list N) : Prop := exists rest, b = a ++ rest.
(** The text that an export hands to the writer, message by message and text by text. *)
Definition handed (acts : list act) : list N := flat_map (fun a => match a with Say => [] | Put b => b end) acts.
(** A disk and a console without failures. *)
Definition sound (dv : device) : Prop := dv_creates dv = true /\ (forall i, dv_takes dv i = None) /\ forall i, dv_console dv i = true.
(** The tool cuts a text into pieces, and only that. *)
Definition cuts (cut : list N -> list act) : Prop := forall x, handed (cut x) = x.
