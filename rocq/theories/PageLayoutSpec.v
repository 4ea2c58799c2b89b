(** What a page layout must have. *)
From Verif Require Export PageLayout.

(** [e'] is [e] with properties in its first child [key]: both are added at the end if missing. *)
Definition completed (key props : string) (e e' : elem) : Prop :=
  root e' = root e /\
  exists l k r, kids e' = l ++ k :: r /\ e_tag k = key /\ Forall (fun x => e_tag x <> key) l /\
    ((kids e = l ++ k :: r /\ exists q, q ∈ kids k /\ e_tag q = props) \/
     (exists k0, kids e = l ++ k0 :: r /\ Forall (fun x => e_tag x <> props) (kids k0) /\
        root k = root k0 /\ kids k = kids k0 ++ [new_elem props]) \/
     (kids e = l /\ r = [] /\ k = T (Nd key ∅ None None) [new_elem props])).
