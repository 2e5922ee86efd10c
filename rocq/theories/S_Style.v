(** The styles of C declarations: [struct Foo { … };], [typedef struct { … } Foo;]
    and [typedef struct Foo { … } Foo;]. *)
From Verif Require Import Base M_Config.

(** There is a tag, so that other declarations say [struct Foo]. *)
Definition has_tag (s : Style) : bool := match s with Tag => true | Type_ => false | Both => true end.
(** There is a typedef name. *)
Definition has_typedef (s : Style) : bool := match s with Tag => false | Type_ => true | Both => true end.
