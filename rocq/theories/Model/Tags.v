(** tags/key_filter.hpp, key_value_filter.hpp, regex_filter.hpp, to_string.hpp and
    utils/filter_and_accumulate.hpp *)
From Verif Require Import Base.Prelude Model.Osm.

(* ---- filters ---- *)
(** tags/key_filter.hpp 39-48: rule_t *)
Record kf_rule := mkKF { kf_result : bool; kf_key : string }.
(** tags/key_filter.hpp 50-51, 57-60: members and constructor *)
Record key_filter := mkKeyFilter { kf_rules : list kf_rule; kf_default : bool }.
Definition key_filter_new (default_result : bool) : key_filter := mkKeyFilter [] default_result.
(** tags/key_filter.hpp 62-65: add *)
Definition kf_add (result : bool) (key : string) (f : key_filter) : key_filter :=
  mkKeyFilter (kf_rules f ++ [mkKF result key]) (kf_default f).
(** tags/key_filter.hpp 67-74: operator() *)
Fixpoint kf_scan (rules : list kf_rule) (dflt : bool) (t : tag) : bool :=
  match rules with
  | [] => dflt
  | r :: rest => if String.eqb (tkey t) (kf_key r) then kf_result r else kf_scan rest dflt t
  end.
Definition kf_apply (f : key_filter) (t : tag) : bool := kf_scan (kf_rules f) (kf_default f) t.

(** tags/key_value_filter.hpp 39-50: rule_t; a null value is stored as "" *)
Record kvf_rule := mkKVF { kvf_result : bool; kvf_key : string; kvf_value : string }.
Record key_value_filter := mkKeyValueFilter { kvf_rules : list kvf_rule; kvf_default : bool }.
(** tags/key_value_filter.hpp 59-62 *)
Definition key_value_filter_new (default_result : bool) := mkKeyValueFilter [] default_result.
(** tags/key_value_filter.hpp 64-67: add (value may be NULL) *)
Definition kvf_add (result : bool) (key : string) (value : option string) (f : key_value_filter) : key_value_filter :=
  mkKeyValueFilter (kvf_rules f ++ [mkKVF result key (match value with Some v => v | None => ""%string end)]) (kvf_default f).
(** tags/key_value_filter.hpp 69-76: operator() *)
Fixpoint kvf_scan (rules : list kvf_rule) (dflt : bool) (t : tag) : bool :=
  match rules with
  | [] => dflt
  | r :: rest =>
      if String.eqb (tkey t) (kvf_key r) && (String.eqb (kvf_value r) "" || String.eqb (tvalue t) (kvf_value r))
      then kvf_result r else kvf_scan rest dflt t
  end.
Definition kvf_apply (f : key_value_filter) (t : tag) : bool := kvf_scan (kvf_rules f) (kvf_default f) t.

Section Regex.
  (** boost::regex: an abstract type of compiled expressions with full-string matching.
      Expressions that do not compile make the constructor throw and are not modelled. *)
  Variable regex : Type.
  Variable regex_match : string -> regex -> bool.
  (** tags/regex_filter.hpp 42-56: rule_t; value stays a default constructed (empty()) regex if NULL *)
  Record rf_rule := mkRF { rf_result : bool; rf_key : regex; rf_value : option regex }.
  Record regex_filter := mkRegexFilter { rf_rules : list rf_rule; rf_default : bool }.
  (** tags/regex_filter.hpp 65-68 *)
  Definition regex_filter_new (default_result : bool) := mkRegexFilter [] default_result.
  (** tags/regex_filter.hpp 70-73: add *)
  Definition rf_add (result : bool) (key : regex) (value : option regex) (f : regex_filter) : regex_filter :=
    mkRegexFilter (rf_rules f ++ [mkRF result key value]) (rf_default f).
  (** tags/regex_filter.hpp 75-82: operator() *)
  Fixpoint rf_scan (rules : list rf_rule) (dflt : bool) (t : tag) : bool :=
    match rules with
    | [] => dflt
    | r :: rest =>
        if regex_match (tkey t) (rf_key r) &&
           match rf_value r with None => true | Some v => regex_match (tvalue t) v end
        then rf_result r else rf_scan rest dflt t
    end.
  Definition rf_apply (f : regex_filter) (t : tag) : bool := rf_scan (rf_rules f) (rf_default f) t.
End Regex.

(* ---- filter iterator and accumulate ---- *)
Section Accumulate.
  Context {E Acc : Type}.
  Variable pred : E -> bool.
  Variable op : Acc -> E -> Acc.
  (** boost::filter_iterator: advance to the next accepted element (an iterator is modelled
      by the rest of the container) *)
  Fixpoint fi_satisfy (it : list E) : list E :=
    match it with
    | [] => []
    | e :: r => if pred e then it else fi_satisfy r
    end.
  (** std::accumulate over a pair of filter iterators; [fuel] bounds the number of steps *)
  Fixpoint fi_accumulate (fuel : nat) (it : list E) (acc : Acc) : option Acc :=
    match it with
    | [] => Some acc
    | e :: r => match fuel with O => None | S f => fi_accumulate f (fi_satisfy r) (op acc e) end
    end.
  (** utils/filter_and_accumulate.hpp 38-44 *)
  Definition filter_and_accumulate (c : list E) (init : Acc) : option Acc :=
    fi_accumulate (List.length c) (fi_satisfy c) init.
End Accumulate.

(* ---- tag to string ---- *)
(** const char* view of a stored std::string: ends at the first NUL *)
Fixpoint c_str (s : string) : string :=
  match s with
  | EmptyString => EmptyString
  | String c r => if Ascii.eqb c zero then EmptyString else String c (c_str r)
  end.
(** std::string::find(char) != npos *)
Fixpoint has_char (c : ascii) (s : string) : bool :=
  match s with EmptyString => false | String d r => Ascii.eqb c d || has_char c r end.
(** tags/to_string.hpp 47-53, 69-73: constructor and members *)
Record tts := mkTTS { tts_escape : string; tts_prefix : string; tts_infix : string; tts_suffix : string; tts_join : string }.
(** tags/to_string.hpp 75-82: append_escaped_string (92 is the backslash) *)
Fixpoint escaped (esc : string) (s : string) : string :=
  match s with
  | EmptyString => EmptyString
  | String c r =>
      if has_char c esc then String "092" (String c (escaped esc r)) else String c (escaped esc r)
  end.
(** tags/to_string.hpp 55-65: operator() *)
Definition tts_op (o : tts) (output : string) (t : tag) : string :=
  (output
   ++ (if String.eqb output "" then "" else tts_join o)
   ++ tts_prefix o ++ escaped (tts_escape o) (c_str (tkey t))
   ++ tts_infix o ++ escaped (tts_escape o) (c_str (tvalue t)) ++ tts_suffix o)%string.
(** tags/to_string.hpp 89-97: TagToKeyEqualsValueStringOp *)
Definition tts_key_equals_value (join : string) : tts := mkTTS "" "" "=" "" join.
(** tags/to_string.hpp 102-110: TagToHStoreStringOp (the quote is character 34) *)
Definition dq : string := String "034" EmptyString.
Definition tts_hstore : tts := mkTTS (String "092" dq) dq (dq ++ "=>" ++ dq) dq ",".
(** tags to one string, as done with filter_and_accumulate (and a filter accepting all tags) *)
Definition tags_to_string (o : tts) (ts : list tag) : string := fold_left (tts_op o) ts ""%string.
