(** The tables of names that C42 speaks of, stated apart from the model. *)
From Coq Require Import ZArith List String.
Import ListNotations.
Open Scope Z_scope.

(** The media kinds that have a name. *)
Definition known_kinds : list (Z * string) :=
  [(1, "picture"); (2, "sound"); (3, "timecode"); (4, "edgecode"); (5, "attribute"); (6, "effectdata");
   (7, "DescriptiveMetadata"); (16, "DataEssenceTrack")]%string.

(** The mob types. *)
Definition known_mobs : list (Z * string) := [(1, "CompositionMob"); (2, "MasterMob"); (3, "SourceMob")]%string.

(** The usages; code 0 has no name. *)
Definition known_usages : list (Z * option string) :=
  [(0, None); (1, Some "precompute"); (2, Some "subclip"); (3, Some "effect"); (4, Some "group"); (5, Some "groupoofter");
   (6, Some "motion"); (7, Some "mastermob"); (9, Some "precompute_file")]%string.
