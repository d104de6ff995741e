(** Sample rules and templates used by the examples and by the refutations. *)
From Verif.Model Require Import Base Node Locate Helpers Rules Runner Config Core.

(** A rule that reports the given paths on every template. *)
Definition rule_of (id : string) (ms : list rulematch) : rule :=
  mkRule id false [] [] [] [] (fun _ => ([], [])) (Some (fun _ _ => Ok ms)) None None.
(** A rule that crashes. *)
Definition crash_rule (id : string) : rule :=
  mkRule id false [] [] [] [] (fun _ => ([], [])) (Some (fun _ _ => Err EKey)) None None.
Definition default_settings : settings := mkSettings false [] ["W"; "E"] [] [].
Definition no_spec : spec := mkSpec [] [].
Definition no_translator : translator := fun c => ([], c_tmpl c).
Definition mk (c1 c2 : Z) : mark := mkMark 0 c1 0 c2.

(** One line of JSON:
    [{"Resources": {"A": {"Type": "T", "Metadata": {"cfn-lint": {"config": {"ignore_checks": ["E9001"]}}}}, "B": {"Type": "T"}}}] *)
Definition one_line : mval :=
  MDict (mk 0 120)
    [(("Resources", Some (mk 1 12)),
      MDict (mk 14 119)
        [(("A", Some (mk 15 18)),
          MDict (mk 20 101)
            [(("Type", Some (mk 21 27)), MStr (mk 29 32) "T");
             (("Metadata", Some (mk 34 44)),
              MDict (mk 46 100)
                [(("cfn-lint", Some (mk 47 57)),
                  MDict (mk 59 99)
                    [(("config", Some (mk 60 68)),
                      MDict (mk 70 98)
                        [(("ignore_checks", Some (mk 71 86)), MList (mk 88 97) [MStr (mk 89 96) "E9001"])])])])]);
         (("B", Some (mk 103 106)), MDict (mk 108 118) [(("Type", Some (mk 109 115)), MStr (mk 117 118) "T")])])].

(** The same resources, one per line (three lines each). *)
Definition ml (l1 c1 l2 c2 : Z) : mark := mkMark l1 c1 l2 c2.
Definition multi_line : mval :=
  MDict (ml 0 0 9 0)
    [(("Resources", Some (ml 0 0 0 9)),
      MDict (ml 1 2 9 0)
        [(("A", Some (ml 1 2 1 3)),
          MDict (ml 2 4 6 0)
            [(("Type", Some (ml 2 4 2 8)), MStr (ml 2 10 2 11) "T");
             (("Metadata", Some (ml 3 4 3 12)),
              MDict (ml 4 6 6 0)
                [(("cfn-lint", Some (ml 4 6 4 14)),
                  MDict (ml 4 16 5 0)
                    [(("config", Some (ml 4 17 4 23)),
                      MDict (ml 4 25 4 60)
                        [(("ignore_checks", Some (ml 4 26 4 40)), MList (ml 4 42 4 52) [MStr (ml 4 43 4 50) "E9001"])])])])]);
         (("B", Some (ml 6 2 6 3)), MDict (ml 7 4 8 0) [(("Type", Some (ml 7 4 7 8)), MStr (ml 7 10 7 11) "T")])])].

Definition bad_b : rule := rule_of "E9001" [mkRM [PKey "Resources"; PKey "A"] "bad A"; mkRM [PKey "Resources"; PKey "B"] "bad B"].
Definition sample_coll : collection := mkColl [bad_b; rule_of "W9002" [mkRM [PKey "Resources"] "w"; mkRM [PKey "Resources"] "w"]] default_settings.
