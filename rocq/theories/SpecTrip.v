(** * SpecTrip: rendering and parsing, as a user sees them. *)
From Verif Require Import PyBase Merge Backend OpenWrt.

(** render() of a new object with this configuration gives the text, and the
    sections can be read in its intermediate data. *)
Definition renders (oid : oracle) (B : backend) (config : dict) (text : string) (inter : dict) : Prop :=
  exists s, render oid B false (fresh config) = (s, Ok text) /\ st_inter s = Some inter.
(** parse() of the text on any OpenWrt object, whatever it held before, gives the
    configuration, then checks it with validate(). *)
Definition parses (oid : oracle) (B : backend) (text : string) (config : dict) : Prop :=
  forall before, exists after, owrt_parse oid B text before = (after, be_validate B config) /\ st_config after = config.
