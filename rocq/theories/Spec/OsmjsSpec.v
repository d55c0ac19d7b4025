(** Specifications for osmjs. *)
From Verif Require Import Base.Prelude Model.Osm Model.Handler Model.Assembler Model.Osmjs Spec.HandlerSpec Spec.AssemblerSpec.

(* ---- options ---- *)
Fixpoint first_some {A B} (f : A -> option B) (l : list A) : option B :=
  match l with [] => None | x :: r => match f x with Some b => Some b | None => first_some f r end end.
Definition choose {A B} (f : A -> option B) (l : list A) : list B := flat_map (fun x => match f x with Some b => [b] | None => [] end) l.
Fixpoint has_char (c : ascii) (s : string) : bool :=
  match s with EmptyString => false | String d r => Ascii.eqb c d || has_char c r end.
(** where a file may be *)
Definition places (home f : string) : list string :=
  let g := if has_char "." f then f else (f ++ ".js")%string in
  map (fun d => d ++ "/" ++ g)%string ["/"; "."; "js"; home ++ "/.osmjs"; "/usr/local/share/osmjs"; "/usr/share/osmjs"]%string.
Definition store_names : list (string * location) :=
  [("none", LNone); ("array", LArray); ("disk", LDisk); ("sparsetable", LSparse); ("vector", LVector)]%string.
Definition store_named (s : string) : option location := option_map snd (find (fun x => String.eqb (fst x) s) store_names).

Section Env.
  Variable readable : string -> bool.
  Variable home : option string.
  (** an option that ends the program: Some (Some c): exit code c, Some None: undefined behaviour *)
  Definition fatal (o : opt) : option (option Z) :=
    match o with
    | OHelp => Some (Some 0)
    | OBad => Some (Some 1)
    | OLocation s => match store_named s with Some _ => None | None => Some (Some 1) end
    | OInclude f => match home with
                    | None => Some None
                    | Some h => if existsb readable (places h f) then None else Some (Some 1)
                    end
    | _ => None
    end.
  Definition included (o : opt) : option string :=
    match o, home with OInclude f, Some h => find readable (places h f) | _, _ => None end.
  Definition script_of (o : opt) : option string := match o with OJavascript f => Some f | _ => None end.
  Definition store_of (o : opt) : option location := match o with OLocation s => store_named s | _ => None end.
  Definition is_opt (x : opt) (o : opt) : bool :=
    match x, o with ODebug, ODebug | ONoRepair, ONoRepair | OTwo, OTwo | OMulti, OMulti => true | _, _ => false end.
  Definition has_opt (x : opt) (os : list opt) : bool := existsb (is_opt x) os.
  (** what the options mean: the last -j and the last -l count, -m is also -2 *)
  Definition meaning (os : list opt) : config :=
    mkCfg (has_opt OTwo os || has_opt OMulti os) (negb (has_opt ONoRepair os)) (last (choose script_of os) ""%string) (choose included os)
      (last (choose store_of os) LNone) (has_opt ODebug os) (has_opt OMulti os).
  Definition options_spec (os : list opt) (rest : list string) : going (config * string * list string) :=
    match first_some fatal os with
    | Some (Some c) => Exit c
    | Some None => Undef
    | None =>
        match rest with
        | [] => Exit 1
        | file :: args =>
            if String.eqb (c_js (meaning os)) "" then Exit 1
            else if (has_opt OTwo os || has_opt OMulti os) && String.eqb file "-" then Exit 1
            else match has_opt OMulti os, c_store (meaning os) with
                 | true, LNone => Exit 1
                 | _, _ => Go (meaning os, file, args)
                 end
        end
    end.
End Env.

(* ---- loading scripts ---- *)
Section Js.
  Context {S F : Type}.
  Variable load : string -> option string.
  Variable eval : string -> S -> option S.
  (** the files are loaded and run one after the other without an error *)
  Inductive loads : list string -> S -> S -> Prop :=
  | loads_nil : forall s, loads [] s s
  | loads_cons : forall f r src s s1 s2, load f = Some src -> eval (c_string src) s = Some s1 -> loads r s1 s2 -> loads (f :: r) s s2.

  (** the name of the function for a callback, and its [this] *)
  Definition js_name (c : callback) : option (string * this) :=
    match c with
    | CInit => Some ("init", OnFunction)
    | CBefore NODE => Some ("before_nodes", OnFunction)
    | CBefore WAY => Some ("before_ways", OnFunction)
    | CBefore RELATION => Some ("before_relations", OnFunction)
    | CAfter NODE => Some ("after_nodes", OnFunction)
    | CAfter WAY => Some ("after_ways", OnFunction)
    | CAfter RELATION => Some ("after_relations", OnFunction)
    | CObj o => Some (match obj_type o with NODE => "node" | WAY => "way" | _ => "relation" end, OnObject o)
    | CArea a => Some ("area", OnArea a)
    | CFinal => Some ("end", OnFunction)
    | _ => None
    end%string.
  (** the functions called for a list of callbacks: those the script [fn] defines *)
  Definition js_calls (fn : string -> option F) (cs : list callback) : list (F * this) :=
    choose (fun c => match js_name c with
                     | Some (n, t) => match fn n with Some f => Some (f, t) | None => None end
                     | None => None
                     end) cs.
  (** calling functions one after the other, whether they throw or not *)
  Definition play (invoke : F -> this -> S -> S * bool) (l : list (F * this)) (s : S) : S :=
    fold_left (fun s x => fst (invoke (fst x) (snd x) s)) l s.
  (** what a script that has been loaded makes of callbacks *)
  Definition final_state (func : string -> S -> option F) (invoke : F -> this -> S -> S * bool) (s : S) (cs : list callback) : S :=
    play invoke (js_calls (fun n => func n s) cs) s.
End Js.

(** the callbacks with the positions of the nodes so far added to the ways *)
Fixpoint located_calls (dflt : position) (seen : list object) (cs : list callback) : list callback :=
  match cs with
  | [] => []
  | CObj o :: r => CObj (locate seen dflt o) :: located_calls dflt (seen ++ [o]) r
  | c :: r => c :: located_calls dflt seen r
  end.
