(** * ExRepo: the repository's own tests, replayed in the model.

    These are tests, not theorems.  They check that the model, fed with captures
    built as the Spec files describe them, gives the results that the tests in
    jinja-lsp-queries/src/search/test_queries.rs expect of the code.  The sources
    are copied from there; node ids are numbered.  Not replayed: the cases with
    syntax errors (the second source of [find_jinja_completion] and [snippets]),
    whose trees depend on the parser's error recovery. *)
From Verif Require Import Base RString Utf8 Types Captures MDefinition MObjects MTemplates.

Definition opt {A B} (f : A -> B) (r : res A) : option B := match r with Ok x => Some (f x) | Panic => None end.
Definition count_ids := opt (fun d => length (def_identifiers d)).
Definition count_objs := opt (fun o => length (os_objects o)).
Definition count_vars := opt (fun l : list identifier => length l).
Definition count_templates := opt (fun t => length (bt_templates t)).
Definition count_py := opt (fun l : list pyid => length l).
Definition completes (cs : list capture) (src : string) (tp : point) : res (option (completion_type * bool)) :=
  o <- objects_query Debug [cs] tp src false;; obj_completion Debug o tp.
Definition template_at (cs : list capture) (src : string) (tp : point) : option string :=
  match templates_query [cs] tp src false with
  | Ok s => match in_template s with
            | Some im => option_map id_name (import_get im tp)
            | None => None
            end
  | Panic => None
  end.
Definition backend_prefix (cs : list capture) (src : string) (tp : point) : option string :=
  match backend_templates_query [cs] tp src false with
  | Ok s => match bt_in_template s tp with
            | Some i => match completion_start Debug tp i with Ok r => r | Panic => None end
            | None => None
            end
  | Panic => None
  end.
Definition last_scope (r : res jdefs) : option point :=
  match r with Ok d => option_map (fun i => snd (id_scope i)) (last_opt (def_identifiers d)) | Panic => None end.

(** test_queries.rs:52-100 [jinja_definitions], case 1. *)

Definition defs0_src : string :=
  "
        {% macro do_something(a, b,c) %}
            <p>Hello world</p>
            {% set class = ""button"" -%}
            {% with name = 55 %}
                <p>Hello {{ name }}</p>
            {% endwith %}
        {% endmacro %}

        {% for i in 10 -%}
        {%- endfor %}

        {{ point }}
        {{ point }}        
        "%string.

Definition defs0_caps : list capture :=
  [mkcap CDefinition (mknode 1 12 17 (mkpt 1 11) (mkpt 1 16) ((mkpt 1 11), (mkpt 1 16)) ((mkpt 1 11), (mkpt 1 16)) None);
   mkcap CId (mknode 2 18 30 (mkpt 1 17) (mkpt 1 29) ((mkpt 1 17), (mkpt 1 29)) ((mkpt 1 17), (mkpt 1 29)) None);
   mkcap CId (mknode 3 31 32 (mkpt 1 30) (mkpt 1 31) ((mkpt 1 30), (mkpt 1 31)) ((mkpt 1 30), (mkpt 1 31)) None);
   mkcap CId (mknode 4 34 35 (mkpt 1 33) (mkpt 1 34) ((mkpt 1 33), (mkpt 1 34)) ((mkpt 1 33), (mkpt 1 34)) None);
   mkcap CId (mknode 5 36 37 (mkpt 1 35) (mkpt 1 36) ((mkpt 1 35), (mkpt 1 36)) ((mkpt 1 35), (mkpt 1 36)) None);
   mkcap CScopeEnd (mknode 6 9 11 (mkpt 1 8) (mkpt 1 10) ((mkpt 1 8), (mkpt 1 10)) ((mkpt 1 8), (mkpt 1 10)) None);
   mkcap CScopeStart (mknode 7 39 41 (mkpt 1 38) (mkpt 1 40) ((mkpt 1 38), (mkpt 1 40)) ((mkpt 1 38), (mkpt 1 40)) None);
   mkcap CDefinition (mknode 8 88 91 (mkpt 3 15) (mkpt 3 18) ((mkpt 3 15), (mkpt 3 18)) ((mkpt 3 15), (mkpt 3 18)) None);
   mkcap CId (mknode 9 92 97 (mkpt 3 19) (mkpt 3 24) ((mkpt 3 19), (mkpt 3 24)) ((mkpt 3 19), (mkpt 3 24)) None);
   mkcap CEquals (mknode 10 98 100 (mkpt 3 25) (mkpt 3 27) ((mkpt 3 25), (mkpt 3 27)) ((mkpt 3 25), (mkpt 3 27)) None);
   mkcap CScopeEnd (mknode 12 85 87 (mkpt 3 12) (mkpt 3 14) ((mkpt 3 12), (mkpt 3 14)) ((mkpt 3 12), (mkpt 3 14)) None);
   mkcap CScopeStart (mknode 13 109 112 (mkpt 3 36) (mkpt 3 39) ((mkpt 3 36), (mkpt 3 39)) ((mkpt 3 36), (mkpt 3 39)) None);
   mkcap CDefinition (mknode 14 128 132 (mkpt 4 15) (mkpt 4 19) ((mkpt 4 15), (mkpt 4 19)) ((mkpt 4 15), (mkpt 4 19)) None);
   mkcap CId (mknode 15 133 137 (mkpt 4 20) (mkpt 4 24) ((mkpt 4 20), (mkpt 4 24)) ((mkpt 4 20), (mkpt 4 24)) None);
   mkcap CEquals (mknode 16 138 140 (mkpt 4 25) (mkpt 4 27) ((mkpt 4 25), (mkpt 4 27)) ((mkpt 4 25), (mkpt 4 27)) None);
   mkcap CScopeEnd (mknode 18 125 127 (mkpt 4 12) (mkpt 4 14) ((mkpt 4 12), (mkpt 4 14)) ((mkpt 4 12), (mkpt 4 14)) None);
   mkcap CScopeStart (mknode 19 143 145 (mkpt 4 30) (mkpt 4 32) ((mkpt 4 30), (mkpt 4 32)) ((mkpt 4 30), (mkpt 4 32)) None);
   mkcap CId (mknode 20 174 178 (mkpt 5 28) (mkpt 5 32) ((mkpt 5 28), (mkpt 5 32)) ((mkpt 5 28), (mkpt 5 32)) None);
   mkcap CEndblock (mknode 21 201 208 (mkpt 6 15) (mkpt 6 22) ((mkpt 6 15), (mkpt 6 22)) ((mkpt 6 15), (mkpt 6 22)) None);
   mkcap CScopeEnd (mknode 22 198 200 (mkpt 6 12) (mkpt 6 14) ((mkpt 6 12), (mkpt 6 14)) ((mkpt 6 12), (mkpt 6 14)) None);
   mkcap CScopeStart (mknode 23 209 211 (mkpt 6 23) (mkpt 6 25) ((mkpt 6 23), (mkpt 6 25)) ((mkpt 6 23), (mkpt 6 25)) None);
   mkcap CEndblock (mknode 24 223 231 (mkpt 7 11) (mkpt 7 19) ((mkpt 7 11), (mkpt 7 19)) ((mkpt 7 11), (mkpt 7 19)) None);
   mkcap CScopeEnd (mknode 25 220 222 (mkpt 7 8) (mkpt 7 10) ((mkpt 7 8), (mkpt 7 10)) ((mkpt 7 8), (mkpt 7 10)) None);
   mkcap CScopeStart (mknode 26 232 234 (mkpt 7 20) (mkpt 7 22) ((mkpt 7 20), (mkpt 7 22)) ((mkpt 7 20), (mkpt 7 22)) None);
   mkcap CDefinition (mknode 27 247 250 (mkpt 9 11) (mkpt 9 14) ((mkpt 9 11), (mkpt 9 14)) ((mkpt 9 11), (mkpt 9 14)) None);
   mkcap CId (mknode 28 251 252 (mkpt 9 15) (mkpt 9 16) ((mkpt 9 15), (mkpt 9 16)) ((mkpt 9 15), (mkpt 9 16)) None);
   mkcap CScopeEnd (mknode 31 244 246 (mkpt 9 8) (mkpt 9 10) ((mkpt 9 8), (mkpt 9 10)) ((mkpt 9 8), (mkpt 9 10)) None);
   mkcap CScopeStart (mknode 32 259 262 (mkpt 9 23) (mkpt 9 26) ((mkpt 9 23), (mkpt 9 26)) ((mkpt 9 23), (mkpt 9 26)) None);
   mkcap CEndblock (mknode 33 275 281 (mkpt 10 12) (mkpt 10 18) ((mkpt 10 12), (mkpt 10 18)) ((mkpt 10 12), (mkpt 10 18)) None);
   mkcap CScopeEnd (mknode 34 271 274 (mkpt 10 8) (mkpt 10 11) ((mkpt 10 8), (mkpt 10 11)) ((mkpt 10 8), (mkpt 10 11)) None);
   mkcap CScopeStart (mknode 35 282 284 (mkpt 10 19) (mkpt 10 21) ((mkpt 10 19), (mkpt 10 21)) ((mkpt 10 19), (mkpt 10 21)) None);
   mkcap CId (mknode 36 297 302 (mkpt 12 11) (mkpt 12 16) ((mkpt 12 11), (mkpt 12 16)) ((mkpt 12 11), (mkpt 12 16)) None);
   mkcap CId (mknode 37 317 322 (mkpt 13 11) (mkpt 13 16) ((mkpt 13 11), (mkpt 13 16)) ((mkpt 13 11), (mkpt 13 16)) None)].

Example jinja_definitions_0 : count_ids (definition_query [defs0_caps] (mkpt 14 8) pt0 defs0_src true) = Some 7%nat.
Proof. vm_compute. reflexivity. Qed.

(** test_queries.rs:52-100 [jinja_definitions], case 2. *)

Definition defs1_src : string :=
  "
            {% with name = 55 %}
                <p>Hello {{ name }}</p>
                {% set a = ""hello world"" %}
                {% set b %}
                    some content
                {% endset %}
            {% endwith %}
            {% for i in 10 -%}
            {%- endfor %}

            {{ point }}
            {{ point }}
            "%string.

Definition defs1_caps : list capture :=
  [mkcap CDefinition (mknode 1 16 20 (mkpt 1 15) (mkpt 1 19) ((mkpt 1 15), (mkpt 1 19)) ((mkpt 1 15), (mkpt 1 19)) None);
   mkcap CId (mknode 2 21 25 (mkpt 1 20) (mkpt 1 24) ((mkpt 1 20), (mkpt 1 24)) ((mkpt 1 20), (mkpt 1 24)) None);
   mkcap CEquals (mknode 3 26 28 (mkpt 1 25) (mkpt 1 27) ((mkpt 1 25), (mkpt 1 27)) ((mkpt 1 25), (mkpt 1 27)) None);
   mkcap CScopeEnd (mknode 5 13 15 (mkpt 1 12) (mkpt 1 14) ((mkpt 1 12), (mkpt 1 14)) ((mkpt 1 12), (mkpt 1 14)) None);
   mkcap CScopeStart (mknode 6 31 33 (mkpt 1 30) (mkpt 1 32) ((mkpt 1 30), (mkpt 1 32)) ((mkpt 1 30), (mkpt 1 32)) None);
   mkcap CId (mknode 7 62 66 (mkpt 2 28) (mkpt 2 32) ((mkpt 2 28), (mkpt 2 32)) ((mkpt 2 28), (mkpt 2 32)) None);
   mkcap CDefinition (mknode 8 93 96 (mkpt 3 19) (mkpt 3 22) ((mkpt 3 19), (mkpt 3 22)) ((mkpt 3 19), (mkpt 3 22)) None);
   mkcap CId (mknode 9 97 98 (mkpt 3 23) (mkpt 3 24) ((mkpt 3 23), (mkpt 3 24)) ((mkpt 3 23), (mkpt 3 24)) None);
   mkcap CEquals (mknode 10 99 101 (mkpt 3 25) (mkpt 3 27) ((mkpt 3 25), (mkpt 3 27)) ((mkpt 3 25), (mkpt 3 27)) None);
   mkcap CScopeEnd (mknode 12 90 92 (mkpt 3 16) (mkpt 3 18) ((mkpt 3 16), (mkpt 3 18)) ((mkpt 3 16), (mkpt 3 18)) None);
   mkcap CScopeStart (mknode 13 115 117 (mkpt 3 41) (mkpt 3 43) ((mkpt 3 41), (mkpt 3 43)) ((mkpt 3 41), (mkpt 3 43)) None);
   mkcap CDefinition (mknode 14 137 140 (mkpt 4 19) (mkpt 4 22) ((mkpt 4 19), (mkpt 4 22)) ((mkpt 4 19), (mkpt 4 22)) None);
   mkcap CId (mknode 15 141 142 (mkpt 4 23) (mkpt 4 24) ((mkpt 4 23), (mkpt 4 24)) ((mkpt 4 23), (mkpt 4 24)) None);
   mkcap CScopeEnd (mknode 16 134 136 (mkpt 4 16) (mkpt 4 18) ((mkpt 4 16), (mkpt 4 18)) ((mkpt 4 16), (mkpt 4 18)) None);
   mkcap CScopeStart (mknode 17 143 145 (mkpt 4 25) (mkpt 4 27) ((mkpt 4 25), (mkpt 4 27)) ((mkpt 4 25), (mkpt 4 27)) None);
   mkcap CEndblock (mknode 18 198 204 (mkpt 6 19) (mkpt 6 25) ((mkpt 6 19), (mkpt 6 25)) ((mkpt 6 19), (mkpt 6 25)) None);
   mkcap CScopeEnd (mknode 19 195 197 (mkpt 6 16) (mkpt 6 18) ((mkpt 6 16), (mkpt 6 18)) ((mkpt 6 16), (mkpt 6 18)) None);
   mkcap CScopeStart (mknode 20 205 207 (mkpt 6 26) (mkpt 6 28) ((mkpt 6 26), (mkpt 6 28)) ((mkpt 6 26), (mkpt 6 28)) None);
   mkcap CEndblock (mknode 21 223 230 (mkpt 7 15) (mkpt 7 22) ((mkpt 7 15), (mkpt 7 22)) ((mkpt 7 15), (mkpt 7 22)) None);
   mkcap CScopeEnd (mknode 22 220 222 (mkpt 7 12) (mkpt 7 14) ((mkpt 7 12), (mkpt 7 14)) ((mkpt 7 12), (mkpt 7 14)) None);
   mkcap CScopeStart (mknode 23 231 233 (mkpt 7 23) (mkpt 7 25) ((mkpt 7 23), (mkpt 7 25)) ((mkpt 7 23), (mkpt 7 25)) None);
   mkcap CDefinition (mknode 24 249 252 (mkpt 8 15) (mkpt 8 18) ((mkpt 8 15), (mkpt 8 18)) ((mkpt 8 15), (mkpt 8 18)) None);
   mkcap CId (mknode 25 253 254 (mkpt 8 19) (mkpt 8 20) ((mkpt 8 19), (mkpt 8 20)) ((mkpt 8 19), (mkpt 8 20)) None);
   mkcap CScopeEnd (mknode 28 246 248 (mkpt 8 12) (mkpt 8 14) ((mkpt 8 12), (mkpt 8 14)) ((mkpt 8 12), (mkpt 8 14)) None);
   mkcap CScopeStart (mknode 29 261 264 (mkpt 8 27) (mkpt 8 30) ((mkpt 8 27), (mkpt 8 30)) ((mkpt 8 27), (mkpt 8 30)) None);
   mkcap CEndblock (mknode 30 281 287 (mkpt 9 16) (mkpt 9 22) ((mkpt 9 16), (mkpt 9 22)) ((mkpt 9 16), (mkpt 9 22)) None);
   mkcap CScopeEnd (mknode 31 277 280 (mkpt 9 12) (mkpt 9 15) ((mkpt 9 12), (mkpt 9 15)) ((mkpt 9 12), (mkpt 9 15)) None);
   mkcap CScopeStart (mknode 32 288 290 (mkpt 9 23) (mkpt 9 25) ((mkpt 9 23), (mkpt 9 25)) ((mkpt 9 23), (mkpt 9 25)) None);
   mkcap CId (mknode 33 307 312 (mkpt 11 15) (mkpt 11 20) ((mkpt 11 15), (mkpt 11 20)) ((mkpt 11 15), (mkpt 11 20)) None);
   mkcap CId (mknode 34 331 336 (mkpt 12 15) (mkpt 12 20) ((mkpt 12 15), (mkpt 12 20)) ((mkpt 12 15), (mkpt 12 20)) None)].

Example jinja_definitions_1 : count_ids (definition_query [defs1_caps] (mkpt 13 12) pt0 defs1_src true) = Some 4%nat.
Proof. vm_compute. reflexivity. Qed.

(** test_queries.rs:103-150 [jinja_identifiers], case 1. *)

Definition objs0_src : string :=
  "
            {{ user.id }}
            {% for i in 10 -%}
                {{ i }}
            {%- endfor %}
            {% set class = ""button"" -%}
        "%string.

Definition objs0_caps : list capture :=
  [mkcap CExpr (mknode 1 13 26 (mkpt 1 12) (mkpt 1 25) ((mkpt 1 12), (mkpt 1 14)) ((mkpt 1 23), (mkpt 1 25)) None);
   mkcap CJustId (mknode 2 16 20 (mkpt 1 15) (mkpt 1 19) ((mkpt 1 15), (mkpt 1 19)) ((mkpt 1 15), (mkpt 1 19)) None);
   mkcap CPipe (mknode 3 20 21 (mkpt 1 19) (mkpt 1 20) ((mkpt 1 19), (mkpt 1 20)) ((mkpt 1 19), (mkpt 1 20)) None);
   mkcap CDot (mknode 3 20 21 (mkpt 1 19) (mkpt 1 20) ((mkpt 1 19), (mkpt 1 20)) ((mkpt 1 19), (mkpt 1 20)) None);
   mkcap CJustId (mknode 4 21 23 (mkpt 1 20) (mkpt 1 22) ((mkpt 1 20), (mkpt 1 22)) ((mkpt 1 20), (mkpt 1 22)) None);
   mkcap CJustId (mknode 5 46 47 (mkpt 2 19) (mkpt 2 20) ((mkpt 2 19), (mkpt 2 20)) ((mkpt 2 19), (mkpt 2 20)) None);
   mkcap CExpr (mknode 6 74 81 (mkpt 3 16) (mkpt 3 23) ((mkpt 3 16), (mkpt 3 18)) ((mkpt 3 21), (mkpt 3 23)) None);
   mkcap CJustId (mknode 7 77 78 (mkpt 3 19) (mkpt 3 20) ((mkpt 3 19), (mkpt 3 20)) ((mkpt 3 19), (mkpt 3 20)) None);
   mkcap CJustId (mknode 8 127 132 (mkpt 5 19) (mkpt 5 24) ((mkpt 5 19), (mkpt 5 24)) ((mkpt 5 19), (mkpt 5 24)) None);
   mkcap CPipe (mknode 9 133 135 (mkpt 5 25) (mkpt 5 27) ((mkpt 5 25), (mkpt 5 27)) ((mkpt 5 25), (mkpt 5 27)) None)].

Example jinja_identifiers_0 : count_objs (objects_query Debug [objs0_caps] pt0 objs0_src true) = Some 4%nat.
Proof. vm_compute. reflexivity. Qed.

(** test_queries.rs:103-150 [jinja_identifiers], case 2. *)

Definition objs1_src : string :=
  "
        {{ obj.abc obj2.abc2 }}

        {{ obj3.field.something.something == obj4.something }}

        {% if obj5.field -%}
        111 {{ abc == def.abc }}
        {% endif %}
        "%string.

Definition objs1_caps : list capture :=
  [mkcap CExpr (mknode 1 9 32 (mkpt 1 8) (mkpt 1 31) ((mkpt 1 8), (mkpt 1 10)) ((mkpt 1 29), (mkpt 1 31)) None);
   mkcap CJustId (mknode 2 12 15 (mkpt 1 11) (mkpt 1 14) ((mkpt 1 11), (mkpt 1 14)) ((mkpt 1 11), (mkpt 1 14)) None);
   mkcap CPipe (mknode 3 15 16 (mkpt 1 14) (mkpt 1 15) ((mkpt 1 14), (mkpt 1 15)) ((mkpt 1 14), (mkpt 1 15)) None);
   mkcap CDot (mknode 3 15 16 (mkpt 1 14) (mkpt 1 15) ((mkpt 1 14), (mkpt 1 15)) ((mkpt 1 14), (mkpt 1 15)) None);
   mkcap CJustId (mknode 4 16 19 (mkpt 1 15) (mkpt 1 18) ((mkpt 1 15), (mkpt 1 18)) ((mkpt 1 15), (mkpt 1 18)) None);
   mkcap CJustId (mknode 5 20 24 (mkpt 1 19) (mkpt 1 23) ((mkpt 1 19), (mkpt 1 23)) ((mkpt 1 19), (mkpt 1 23)) None);
   mkcap CPipe (mknode 6 24 25 (mkpt 1 23) (mkpt 1 24) ((mkpt 1 23), (mkpt 1 24)) ((mkpt 1 23), (mkpt 1 24)) None);
   mkcap CDot (mknode 6 24 25 (mkpt 1 23) (mkpt 1 24) ((mkpt 1 23), (mkpt 1 24)) ((mkpt 1 23), (mkpt 1 24)) None);
   mkcap CJustId (mknode 7 25 29 (mkpt 1 24) (mkpt 1 28) ((mkpt 1 24), (mkpt 1 28)) ((mkpt 1 24), (mkpt 1 28)) None);
   mkcap CExpr (mknode 8 42 96 (mkpt 3 8) (mkpt 3 62) ((mkpt 3 8), (mkpt 3 10)) ((mkpt 3 60), (mkpt 3 62)) None);
   mkcap CJustId (mknode 9 45 49 (mkpt 3 11) (mkpt 3 15) ((mkpt 3 11), (mkpt 3 15)) ((mkpt 3 11), (mkpt 3 15)) None);
   mkcap CPipe (mknode 10 49 50 (mkpt 3 15) (mkpt 3 16) ((mkpt 3 15), (mkpt 3 16)) ((mkpt 3 15), (mkpt 3 16)) None);
   mkcap CDot (mknode 10 49 50 (mkpt 3 15) (mkpt 3 16) ((mkpt 3 15), (mkpt 3 16)) ((mkpt 3 15), (mkpt 3 16)) None);
   mkcap CJustId (mknode 11 50 55 (mkpt 3 16) (mkpt 3 21) ((mkpt 3 16), (mkpt 3 21)) ((mkpt 3 16), (mkpt 3 21)) None);
   mkcap CPipe (mknode 12 55 56 (mkpt 3 21) (mkpt 3 22) ((mkpt 3 21), (mkpt 3 22)) ((mkpt 3 21), (mkpt 3 22)) None);
   mkcap CDot (mknode 12 55 56 (mkpt 3 21) (mkpt 3 22) ((mkpt 3 21), (mkpt 3 22)) ((mkpt 3 21), (mkpt 3 22)) None);
   mkcap CJustId (mknode 13 56 65 (mkpt 3 22) (mkpt 3 31) ((mkpt 3 22), (mkpt 3 31)) ((mkpt 3 22), (mkpt 3 31)) None);
   mkcap CPipe (mknode 14 65 66 (mkpt 3 31) (mkpt 3 32) ((mkpt 3 31), (mkpt 3 32)) ((mkpt 3 31), (mkpt 3 32)) None);
   mkcap CDot (mknode 14 65 66 (mkpt 3 31) (mkpt 3 32) ((mkpt 3 31), (mkpt 3 32)) ((mkpt 3 31), (mkpt 3 32)) None);
   mkcap CJustId (mknode 15 66 75 (mkpt 3 32) (mkpt 3 41) ((mkpt 3 32), (mkpt 3 41)) ((mkpt 3 32), (mkpt 3 41)) None);
   mkcap CPipe (mknode 16 76 79 (mkpt 3 42) (mkpt 3 45) ((mkpt 3 42), (mkpt 3 45)) ((mkpt 3 42), (mkpt 3 45)) None);
   mkcap CJustId (mknode 17 79 83 (mkpt 3 45) (mkpt 3 49) ((mkpt 3 45), (mkpt 3 49)) ((mkpt 3 45), (mkpt 3 49)) None);
   mkcap CPipe (mknode 18 83 84 (mkpt 3 49) (mkpt 3 50) ((mkpt 3 49), (mkpt 3 50)) ((mkpt 3 49), (mkpt 3 50)) None);
   mkcap CDot (mknode 18 83 84 (mkpt 3 49) (mkpt 3 50) ((mkpt 3 49), (mkpt 3 50)) ((mkpt 3 49), (mkpt 3 50)) None);
   mkcap CJustId (mknode 19 84 93 (mkpt 3 50) (mkpt 3 59) ((mkpt 3 50), (mkpt 3 59)) ((mkpt 3 50), (mkpt 3 59)) None);
   mkcap CJustId (mknode 20 112 116 (mkpt 5 14) (mkpt 5 18) ((mkpt 5 14), (mkpt 5 18)) ((mkpt 5 14), (mkpt 5 18)) None);
   mkcap CPipe (mknode 21 116 117 (mkpt 5 18) (mkpt 5 19) ((mkpt 5 18), (mkpt 5 19)) ((mkpt 5 18), (mkpt 5 19)) None);
   mkcap CDot (mknode 21 116 117 (mkpt 5 18) (mkpt 5 19) ((mkpt 5 18), (mkpt 5 19)) ((mkpt 5 18), (mkpt 5 19)) None);
   mkcap CJustId (mknode 22 117 122 (mkpt 5 19) (mkpt 5 24) ((mkpt 5 19), (mkpt 5 24)) ((mkpt 5 19), (mkpt 5 24)) None);
   mkcap CExpr (mknode 23 139 159 (mkpt 6 12) (mkpt 6 32) ((mkpt 6 12), (mkpt 6 14)) ((mkpt 6 30), (mkpt 6 32)) None);
   mkcap CJustId (mknode 24 142 145 (mkpt 6 15) (mkpt 6 18) ((mkpt 6 15), (mkpt 6 18)) ((mkpt 6 15), (mkpt 6 18)) None);
   mkcap CPipe (mknode 25 146 149 (mkpt 6 19) (mkpt 6 22) ((mkpt 6 19), (mkpt 6 22)) ((mkpt 6 19), (mkpt 6 22)) None);
   mkcap CJustId (mknode 26 149 152 (mkpt 6 22) (mkpt 6 25) ((mkpt 6 22), (mkpt 6 25)) ((mkpt 6 22), (mkpt 6 25)) None);
   mkcap CPipe (mknode 27 152 153 (mkpt 6 25) (mkpt 6 26) ((mkpt 6 25), (mkpt 6 26)) ((mkpt 6 25), (mkpt 6 26)) None);
   mkcap CDot (mknode 27 152 153 (mkpt 6 25) (mkpt 6 26) ((mkpt 6 25), (mkpt 6 26)) ((mkpt 6 25), (mkpt 6 26)) None);
   mkcap CJustId (mknode 28 153 156 (mkpt 6 26) (mkpt 6 29) ((mkpt 6 26), (mkpt 6 29)) ((mkpt 6 26), (mkpt 6 29)) None)].

Example jinja_identifiers_1 : count_objs (objects_query Debug [objs1_caps] pt0 objs1_src true) = Some 7%nat.
Proof. vm_compute. reflexivity. Qed.

(** test_queries.rs:103-150 [jinja_identifiers], case 3. *)

Definition objs2_src : string :=
  "
        <p> {{ something }}</p>
        <p hx-swap=""innerHTML""> {{ something | some_filter(a, b,c) }} </p>            
        {% for i in something -%}
            {{ i }}
        {%- endfor %}
        {% if something %}
            {{ something }}
        {% endif %}
        "%string.

Definition objs2_caps : list capture :=
  [mkcap CExpr (mknode 1 13 28 (mkpt 1 12) (mkpt 1 27) ((mkpt 1 12), (mkpt 1 14)) ((mkpt 1 25), (mkpt 1 27)) None);
   mkcap CJustId (mknode 2 16 25 (mkpt 1 15) (mkpt 1 24) ((mkpt 1 15), (mkpt 1 24)) ((mkpt 1 15), (mkpt 1 24)) None);
   mkcap CExpr (mknode 3 65 102 (mkpt 2 32) (mkpt 2 69) ((mkpt 2 32), (mkpt 2 34)) ((mkpt 2 67), (mkpt 2 69)) None);
   mkcap CJustId (mknode 4 68 77 (mkpt 2 35) (mkpt 2 44) ((mkpt 2 35), (mkpt 2 44)) ((mkpt 2 35), (mkpt 2 44)) None);
   mkcap CPipe (mknode 5 78 80 (mkpt 2 45) (mkpt 2 47) ((mkpt 2 45), (mkpt 2 47)) ((mkpt 2 45), (mkpt 2 47)) None);
   mkcap CJustId (mknode 6 80 91 (mkpt 2 47) (mkpt 2 58) ((mkpt 2 47), (mkpt 2 58)) ((mkpt 2 47), (mkpt 2 58)) None);
   mkcap CJustId (mknode 7 92 93 (mkpt 2 59) (mkpt 2 60) ((mkpt 2 59), (mkpt 2 60)) ((mkpt 2 59), (mkpt 2 60)) None);
   mkcap CJustId (mknode 8 95 96 (mkpt 2 62) (mkpt 2 63) ((mkpt 2 62), (mkpt 2 63)) ((mkpt 2 62), (mkpt 2 63)) None);
   mkcap CJustId (mknode 9 97 98 (mkpt 2 64) (mkpt 2 65) ((mkpt 2 64), (mkpt 2 65)) ((mkpt 2 64), (mkpt 2 65)) None);
   mkcap CJustId (mknode 10 135 136 (mkpt 3 15) (mkpt 3 16) ((mkpt 3 15), (mkpt 3 16)) ((mkpt 3 15), (mkpt 3 16)) None);
   mkcap CJustId (mknode 11 140 149 (mkpt 3 20) (mkpt 3 29) ((mkpt 3 20), (mkpt 3 29)) ((mkpt 3 20), (mkpt 3 29)) None);
   mkcap CExpr (mknode 12 166 173 (mkpt 4 12) (mkpt 4 19) ((mkpt 4 12), (mkpt 4 14)) ((mkpt 4 17), (mkpt 4 19)) None);
   mkcap CJustId (mknode 13 169 170 (mkpt 4 15) (mkpt 4 16) ((mkpt 4 15), (mkpt 4 16)) ((mkpt 4 15), (mkpt 4 16)) None);
   mkcap CJustId (mknode 14 210 219 (mkpt 6 14) (mkpt 6 23) ((mkpt 6 14), (mkpt 6 23)) ((mkpt 6 14), (mkpt 6 23)) None);
   mkcap CExpr (mknode 15 235 250 (mkpt 7 12) (mkpt 7 27) ((mkpt 7 12), (mkpt 7 14)) ((mkpt 7 25), (mkpt 7 27)) None);
   mkcap CJustId (mknode 16 238 247 (mkpt 7 15) (mkpt 7 24) ((mkpt 7 15), (mkpt 7 24)) ((mkpt 7 15), (mkpt 7 24)) None)].

Example jinja_identifiers_2 : count_objs (objects_query Debug [objs2_caps] pt0 objs2_src true) = Some 11%nat.
Proof. vm_compute. reflexivity. Qed.

(** test_queries.rs:153-169 [rust_definition]. *)

Definition rust_src : string :=
  "
            let a = context!(name => 11 + abc, abc => ""username"");
            let b = context!{name, username => ""username"" } 
            let price = 100;
            let c = context!{ price };
            jinja.add_filter(""running_locally"", true);        
            jinja.add_function(""some_fn"", some_fn);
        "%string.

Definition rust_caps : list capture :=
  [mkcap COther (mknode 1 21 28 (mkpt 1 20) (mkpt 1 27) ((mkpt 1 20), (mkpt 1 27)) ((mkpt 1 20), (mkpt 1 27)) None);
   mkcap CKeyId (mknode 2 30 34 (mkpt 1 29) (mkpt 1 33) ((mkpt 1 29), (mkpt 1 33)) ((mkpt 1 29), (mkpt 1 33)) None);
   mkcap CKeyId (mknode 3 43 46 (mkpt 1 42) (mkpt 1 45) ((mkpt 1 42), (mkpt 1 45)) ((mkpt 1 42), (mkpt 1 45)) None);
   mkcap CKeyId (mknode 4 48 51 (mkpt 1 47) (mkpt 1 50) ((mkpt 1 47), (mkpt 1 50)) ((mkpt 1 47), (mkpt 1 50)) None);
   mkcap COther (mknode 5 88 95 (mkpt 2 20) (mkpt 2 27) ((mkpt 2 20), (mkpt 2 27)) ((mkpt 2 20), (mkpt 2 27)) None);
   mkcap CKeyId (mknode 6 97 101 (mkpt 2 29) (mkpt 2 33) ((mkpt 2 29), (mkpt 2 33)) ((mkpt 2 29), (mkpt 2 33)) None);
   mkcap CKeyId (mknode 7 103 111 (mkpt 2 35) (mkpt 2 43) ((mkpt 2 35), (mkpt 2 43)) ((mkpt 2 35), (mkpt 2 43)) None);
   mkcap COther (mknode 8 178 185 (mkpt 4 20) (mkpt 4 27) ((mkpt 4 20), (mkpt 4 27)) ((mkpt 4 20), (mkpt 4 27)) None);
   mkcap CKeyId (mknode 9 188 193 (mkpt 4 30) (mkpt 4 35) ((mkpt 4 30), (mkpt 4 35)) ((mkpt 4 30), (mkpt 4 35)) None);
   mkcap COther (mknode 10 209 214 (mkpt 5 12) (mkpt 5 17) ((mkpt 5 12), (mkpt 5 17)) ((mkpt 5 12), (mkpt 5 17)) None);
   mkcap COther (mknode 11 215 225 (mkpt 5 18) (mkpt 5 28) ((mkpt 5 18), (mkpt 5 28)) ((mkpt 5 18), (mkpt 5 28)) None);
   mkcap CName (mknode 12 226 243 (mkpt 5 29) (mkpt 5 46) ((mkpt 5 29), (mkpt 5 46)) ((mkpt 5 29), (mkpt 5 46)) None);
   mkcap COther (mknode 13 272 277 (mkpt 6 12) (mkpt 6 17) ((mkpt 6 12), (mkpt 6 17)) ((mkpt 6 12), (mkpt 6 17)) None);
   mkcap COther (mknode 14 278 290 (mkpt 6 18) (mkpt 6 30) ((mkpt 6 18), (mkpt 6 30)) ((mkpt 6 18), (mkpt 6 30)) None);
   mkcap CName (mknode 15 291 300 (mkpt 6 31) (mkpt 6 40) ((mkpt 6 31), (mkpt 6 40)) ((mkpt 6 31), (mkpt 6 40)) None)].

Example rust_definition : count_vars (backend_definition_query [rust_caps] pt0 rust_src true) = Some 8%nat.
Proof. vm_compute. reflexivity. Qed.

(** test_queries.rs:172-187 [python_definition]. *)

Definition python_src : string :=
  "
            jinja_env.globals['a'] = 1
            render_template(data=123)
            some_obj.render_template(first_name = ""John"", last_name = ""Doe"")
            render(a=11)        
        "%string.

Definition python_caps : list capture :=
  [mkcap CKeyId (mknode 1 32 33 (mkpt 1 31) (mkpt 1 32) ((mkpt 1 31), (mkpt 1 32)) ((mkpt 1 31), (mkpt 1 32)) None);
   mkcap COther (mknode 2 52 58 (mkpt 2 12) (mkpt 2 18) ((mkpt 2 12), (mkpt 2 18)) ((mkpt 2 12), (mkpt 2 18)) None);
   mkcap CKeyId (mknode 3 68 72 (mkpt 2 28) (mkpt 2 32) ((mkpt 2 28), (mkpt 2 32)) ((mkpt 2 28), (mkpt 2 32)) None);
   mkcap COther (mknode 4 99 105 (mkpt 3 21) (mkpt 3 27) ((mkpt 3 21), (mkpt 3 27)) ((mkpt 3 21), (mkpt 3 27)) None);
   mkcap CKeyId (mknode 5 115 125 (mkpt 3 37) (mkpt 3 47) ((mkpt 3 37), (mkpt 3 47)) ((mkpt 3 37), (mkpt 3 47)) None);
   mkcap COther (mknode 6 99 105 (mkpt 3 21) (mkpt 3 27) ((mkpt 3 21), (mkpt 3 27)) ((mkpt 3 21), (mkpt 3 27)) None);
   mkcap CKeyId (mknode 7 136 145 (mkpt 3 58) (mkpt 3 67) ((mkpt 3 58), (mkpt 3 67)) ((mkpt 3 58), (mkpt 3 67)) None);
   mkcap COther (mknode 8 167 173 (mkpt 4 12) (mkpt 4 18) ((mkpt 4 12), (mkpt 4 18)) ((mkpt 4 12), (mkpt 4 18)) None);
   mkcap CKeyId (mknode 9 174 175 (mkpt 4 19) (mkpt 4 20) ((mkpt 4 19), (mkpt 4 20)) ((mkpt 4 19), (mkpt 4 20)) None)].

Example python_definition : count_vars (backend_definition_query [python_caps] pt0 python_src true) = Some 5%nat.
Proof. vm_compute. reflexivity. Qed.

(** test_queries.rs:190-316 [find_jinja_completion]. *)

Definition compl_src : string :=
  "
            {{ something |     filter1 | filter2 }}
            {{ some_identifier.otherfields }}
            {% if something == 11 -%}
            {% macro example(a, b, c) -%}
            <p> hello world</p> 
            {%- endmacro %}

            {{ }}
            {{ ""|"" }}
            {{ identifier }}
            {{}}    
            {{ identifier }}   
        "%string.

Definition compl_caps : list capture :=
  [mkcap CExpr (mknode 1 13 52 (mkpt 1 12) (mkpt 1 51) ((mkpt 1 12), (mkpt 1 14)) ((mkpt 1 49), (mkpt 1 51)) None);
   mkcap CJustId (mknode 2 16 25 (mkpt 1 15) (mkpt 1 24) ((mkpt 1 15), (mkpt 1 24)) ((mkpt 1 15), (mkpt 1 24)) None);
   mkcap CPipe (mknode 3 26 32 (mkpt 1 25) (mkpt 1 31) ((mkpt 1 25), (mkpt 1 31)) ((mkpt 1 25), (mkpt 1 31)) None);
   mkcap CJustId (mknode 4 32 39 (mkpt 1 31) (mkpt 1 38) ((mkpt 1 31), (mkpt 1 38)) ((mkpt 1 31), (mkpt 1 38)) None);
   mkcap CPipe (mknode 5 40 42 (mkpt 1 39) (mkpt 1 41) ((mkpt 1 39), (mkpt 1 41)) ((mkpt 1 39), (mkpt 1 41)) None);
   mkcap CJustId (mknode 6 42 49 (mkpt 1 41) (mkpt 1 48) ((mkpt 1 41), (mkpt 1 48)) ((mkpt 1 41), (mkpt 1 48)) None);
   mkcap CExpr (mknode 7 65 98 (mkpt 2 12) (mkpt 2 45) ((mkpt 2 12), (mkpt 2 14)) ((mkpt 2 43), (mkpt 2 45)) None);
   mkcap CJustId (mknode 8 68 83 (mkpt 2 15) (mkpt 2 30) ((mkpt 2 15), (mkpt 2 30)) ((mkpt 2 15), (mkpt 2 30)) None);
   mkcap CPipe (mknode 9 83 84 (mkpt 2 30) (mkpt 2 31) ((mkpt 2 30), (mkpt 2 31)) ((mkpt 2 30), (mkpt 2 31)) None);
   mkcap CDot (mknode 9 83 84 (mkpt 2 30) (mkpt 2 31) ((mkpt 2 30), (mkpt 2 31)) ((mkpt 2 30), (mkpt 2 31)) None);
   mkcap CJustId (mknode 10 84 95 (mkpt 2 31) (mkpt 2 42) ((mkpt 2 31), (mkpt 2 42)) ((mkpt 2 31), (mkpt 2 42)) None);
   mkcap CJustId (mknode 11 117 126 (mkpt 3 18) (mkpt 3 27) ((mkpt 3 18), (mkpt 3 27)) ((mkpt 3 18), (mkpt 3 27)) None);
   mkcap CPipe (mknode 12 127 130 (mkpt 3 28) (mkpt 3 31) ((mkpt 3 28), (mkpt 3 31)) ((mkpt 3 28), (mkpt 3 31)) None);
   mkcap CJustId (mknode 13 158 165 (mkpt 4 21) (mkpt 4 28) ((mkpt 4 21), (mkpt 4 28)) ((mkpt 4 21), (mkpt 4 28)) None);
   mkcap CJustId (mknode 14 166 167 (mkpt 4 29) (mkpt 4 30) ((mkpt 4 29), (mkpt 4 30)) ((mkpt 4 29), (mkpt 4 30)) None);
   mkcap CJustId (mknode 15 169 170 (mkpt 4 32) (mkpt 4 33) ((mkpt 4 32), (mkpt 4 33)) ((mkpt 4 32), (mkpt 4 33)) None);
   mkcap CJustId (mknode 16 172 173 (mkpt 4 35) (mkpt 4 36) ((mkpt 4 35), (mkpt 4 36)) ((mkpt 4 35), (mkpt 4 36)) None);
   mkcap CExpr (mknode 17 253 258 (mkpt 8 12) (mkpt 8 17) ((mkpt 8 12), (mkpt 8 14)) ((mkpt 8 15), (mkpt 8 17)) None);
   mkcap CExpr (mknode 18 271 280 (mkpt 9 12) (mkpt 9 21) ((mkpt 9 12), (mkpt 9 14)) ((mkpt 9 19), (mkpt 9 21)) None);
   mkcap CExpr (mknode 19 293 309 (mkpt 10 12) (mkpt 10 28) ((mkpt 10 12), (mkpt 10 14)) ((mkpt 10 26), (mkpt 10 28)) None);
   mkcap CJustId (mknode 20 296 306 (mkpt 10 15) (mkpt 10 25) ((mkpt 10 15), (mkpt 10 25)) ((mkpt 10 15), (mkpt 10 25)) None);
   mkcap CExpr (mknode 21 322 326 (mkpt 11 12) (mkpt 11 16) ((mkpt 11 12), (mkpt 11 14)) ((mkpt 11 14), (mkpt 11 16)) None);
   mkcap CExpr (mknode 22 343 359 (mkpt 12 12) (mkpt 12 28) ((mkpt 12 12), (mkpt 12 14)) ((mkpt 12 26), (mkpt 12 28)) None);
   mkcap CJustId (mknode 23 346 356 (mkpt 12 15) (mkpt 12 25) ((mkpt 12 15), (mkpt 12 25)) ((mkpt 12 15), (mkpt 12 25)) None)].

Definition compl_cases : list (point * option (completion_type * bool)) :=
  [(mkpt 2 24, Some (CtIncompleteIdentifier "some_iden" (to_range (mkpt 2 15, mkpt 2 42)), false));
   (mkpt 1 27, Some (CtFilter, false));
   (mkpt 1 47, Some (CtIncompleteIdentifier "filter" (to_range (mkpt 1 41, mkpt 1 48)), false));
   (mkpt 1 46, Some (CtIncompleteIdentifier "filte" (to_range (mkpt 1 41, mkpt 1 48)), false));
   (mkpt 1 40, Some (CtFilter, false));
   (mkpt 1 50, Some (CtIdentifier, false));
   (mkpt 3 18, None);
   (mkpt 4 20, None);
   (mkpt 3 22, None);
   (mkpt 8 15, Some (CtIdentifier, false));
   (mkpt 9 18, Some (CtIdentifier, false));
   (mkpt 10 18, Some (CtIncompleteIdentifier "ide" (to_range (mkpt 10 15, mkpt 10 25)), false));
   (mkpt 10 25, Some (CtIncompleteIdentifier "identifier" (to_range (mkpt 10 15, mkpt 10 25)), false));
   (mkpt 11 14, Some (CtIdentifier, false));
   (mkpt 12 25, Some (CtIncompleteIdentifier "identifier" (to_range (mkpt 12 15, mkpt 12 25)), false));
   (mkpt 11 14, Some (CtIdentifier, false));
   (mkpt 11 19, None);
   (mkpt 12 28, None)]%string.

Example find_jinja_completion : map (fun c => completes compl_caps compl_src (fst c)) compl_cases = map (fun c => Ok (snd c)) compl_cases.
Proof. vm_compute. reflexivity. Qed.

(** test_queries.rs:320-356 [check_jinja_templates]. *)

Definition imports_src : string :=
  "
        <div class=""bg-white overflow-hidden shadow rounded-lg border"">
            {% include 'header.jinja' %}
            {% include 'customization.jinja' ignore missing %}
            {% include ['page_detailed.jinja', 'page.jinja'] %}
            {% import ""header.jinja""  %}
            {% from ""page_detailed.jinja"" import a %}
        </div> 	    
        "%string.

Definition imports_caps : list capture :=
  [mkcap CInclude (mknode 1 85 113 (mkpt 2 12) (mkpt 2 40) ((mkpt 2 12), (mkpt 2 40)) ((mkpt 2 12), (mkpt 2 40)) None);
   mkcap COther (mknode 2 88 95 (mkpt 2 15) (mkpt 2 22) ((mkpt 2 15), (mkpt 2 22)) ((mkpt 2 15), (mkpt 2 22)) None);
   mkcap CTemplateName (mknode 3 96 110 (mkpt 2 23) (mkpt 2 37) ((mkpt 2 23), (mkpt 2 37)) ((mkpt 2 23), (mkpt 2 37)) None);
   mkcap CInclude (mknode 4 126 176 (mkpt 3 12) (mkpt 3 62) ((mkpt 3 12), (mkpt 3 62)) ((mkpt 3 12), (mkpt 3 62)) None);
   mkcap COther (mknode 5 129 136 (mkpt 3 15) (mkpt 3 22) ((mkpt 3 15), (mkpt 3 22)) ((mkpt 3 15), (mkpt 3 22)) None);
   mkcap CTemplateName (mknode 6 137 158 (mkpt 3 23) (mkpt 3 44) ((mkpt 3 23), (mkpt 3 44)) ((mkpt 3 23), (mkpt 3 44)) None);
   mkcap CInclude (mknode 7 189 240 (mkpt 4 12) (mkpt 4 63) ((mkpt 4 12), (mkpt 4 63)) ((mkpt 4 12), (mkpt 4 63)) None);
   mkcap COther (mknode 8 192 199 (mkpt 4 15) (mkpt 4 22) ((mkpt 4 15), (mkpt 4 22)) ((mkpt 4 15), (mkpt 4 22)) None);
   mkcap CTemplateName (mknode 9 201 222 (mkpt 4 24) (mkpt 4 45) ((mkpt 4 24), (mkpt 4 45)) ((mkpt 4 24), (mkpt 4 45)) None);
   mkcap CInclude (mknode 7 189 240 (mkpt 4 12) (mkpt 4 63) ((mkpt 4 12), (mkpt 4 63)) ((mkpt 4 12), (mkpt 4 63)) None);
   mkcap COther (mknode 10 192 199 (mkpt 4 15) (mkpt 4 22) ((mkpt 4 15), (mkpt 4 22)) ((mkpt 4 15), (mkpt 4 22)) None);
   mkcap CTemplateName (mknode 11 224 236 (mkpt 4 47) (mkpt 4 59) ((mkpt 4 47), (mkpt 4 59)) ((mkpt 4 47), (mkpt 4 59)) None);
   mkcap CImport (mknode 12 253 281 (mkpt 5 12) (mkpt 5 40) ((mkpt 5 12), (mkpt 5 40)) ((mkpt 5 12), (mkpt 5 40)) None);
   mkcap COther (mknode 13 256 262 (mkpt 5 15) (mkpt 5 21) ((mkpt 5 15), (mkpt 5 21)) ((mkpt 5 15), (mkpt 5 21)) None);
   mkcap CTemplateName (mknode 14 263 277 (mkpt 5 22) (mkpt 5 36) ((mkpt 5 22), (mkpt 5 36)) ((mkpt 5 22), (mkpt 5 36)) None);
   mkcap CFrom (mknode 15 294 335 (mkpt 6 12) (mkpt 6 53) ((mkpt 6 12), (mkpt 6 53)) ((mkpt 6 12), (mkpt 6 53)) None);
   mkcap COther (mknode 16 297 301 (mkpt 6 15) (mkpt 6 19) ((mkpt 6 15), (mkpt 6 19)) ((mkpt 6 15), (mkpt 6 19)) None);
   mkcap CTemplateName (mknode 17 302 323 (mkpt 6 20) (mkpt 6 41) ((mkpt 6 20), (mkpt 6 41)) ((mkpt 6 20), (mkpt 6 41)) None);
   mkcap COther (mknode 18 324 330 (mkpt 6 42) (mkpt 6 48) ((mkpt 6 42), (mkpt 6 48)) ((mkpt 6 42), (mkpt 6 48)) None);
   mkcap CImportIdentifier (mknode 19 331 332 (mkpt 6 49) (mkpt 6 50) ((mkpt 6 49), (mkpt 6 50)) ((mkpt 6 49), (mkpt 6 50)) None)].

Definition imports_cases : list (point * string) :=
  [(mkpt 2 25, "header.jinja"); (mkpt 3 30, "customization.jinja"); (mkpt 4 36, "page_detailed.jinja"); (mkpt 4 50, "page.jinja"); (mkpt 5 34, "header.jinja"); (mkpt 6 39, "page_detailed.jinja")]%string.

Example check_jinja_templates : map (fun c => template_at imports_caps imports_src (fst c)) imports_cases = map (fun c => Some (snd c)) imports_cases.
Proof. vm_compute. reflexivity. Qed.

(** test_queries.rs:359-374 [jinja_templates_in_rust]. *)

Definition rust_tpl_src : string :=
  "
            get_template("""",11);
            render_jinja(""some_template.jinja"");
            render_jinja(1,2, 3, ""some_template.jinja"");
            render_jinja(1,2, 3);
            add_global(""PROJECT_NAME"", ""Example"");
            
        "%string.

Definition rust_tpl_caps : list capture :=
  [mkcap CMethodName (mknode 1 13 25 (mkpt 1 12) (mkpt 1 24) ((mkpt 1 12), (mkpt 1 24)) ((mkpt 1 12), (mkpt 1 24)) None);
   mkcap CTemplateName (mknode 2 26 28 (mkpt 1 25) (mkpt 1 27) ((mkpt 1 25), (mkpt 1 27)) ((mkpt 1 25), (mkpt 1 27)) None);
   mkcap CMethodName (mknode 3 46 58 (mkpt 2 12) (mkpt 2 24) ((mkpt 2 12), (mkpt 2 24)) ((mkpt 2 12), (mkpt 2 24)) None);
   mkcap CTemplateName (mknode 4 59 80 (mkpt 2 25) (mkpt 2 46) ((mkpt 2 25), (mkpt 2 46)) ((mkpt 2 25), (mkpt 2 46)) None);
   mkcap CMethodName (mknode 5 95 107 (mkpt 3 12) (mkpt 3 24) ((mkpt 3 12), (mkpt 3 24)) ((mkpt 3 12), (mkpt 3 24)) None);
   mkcap CTemplateName (mknode 6 116 137 (mkpt 3 33) (mkpt 3 54) ((mkpt 3 33), (mkpt 3 54)) ((mkpt 3 33), (mkpt 3 54)) None)].

Example jinja_templates_in_rust : count_templates (backend_templates_query [rust_tpl_caps] pt0 rust_tpl_src true) = Some 3%nat.
Proof. vm_compute. reflexivity. Qed.

(** test_queries.rs:377-394 [template_completion_in_rust]. *)

Definition rust_compl_src : string :=
  "
            let tmp2 = jinja.get_template(""account3"");
            let tmp2 = jinja.get_template(""account2"");
            let tmp = jinja.get_template(""account"");
            let tmp = jinja.anything(""account"");
        "%string.

Definition rust_compl_caps : list capture :=
  [mkcap CMethodName (mknode 1 30 42 (mkpt 1 29) (mkpt 1 41) ((mkpt 1 29), (mkpt 1 41)) ((mkpt 1 29), (mkpt 1 41)) None);
   mkcap CTemplateName (mknode 2 43 53 (mkpt 1 42) (mkpt 1 52) ((mkpt 1 42), (mkpt 1 52)) ((mkpt 1 42), (mkpt 1 52)) None);
   mkcap CMethodName (mknode 3 85 97 (mkpt 2 29) (mkpt 2 41) ((mkpt 2 29), (mkpt 2 41)) ((mkpt 2 29), (mkpt 2 41)) None);
   mkcap CTemplateName (mknode 4 98 108 (mkpt 2 42) (mkpt 2 52) ((mkpt 2 42), (mkpt 2 52)) ((mkpt 2 42), (mkpt 2 52)) None);
   mkcap CMethodName (mknode 5 139 151 (mkpt 3 28) (mkpt 3 40) ((mkpt 3 28), (mkpt 3 40)) ((mkpt 3 28), (mkpt 3 40)) None);
   mkcap CTemplateName (mknode 6 152 161 (mkpt 3 41) (mkpt 3 50) ((mkpt 3 41), (mkpt 3 50)) ((mkpt 3 41), (mkpt 3 50)) None)].

Example template_completion_in_rust : backend_prefix rust_compl_caps rust_compl_src (mkpt 3 47) = Some "acco"%string.
Proof. vm_compute. reflexivity. Qed.

(** test_queries.rs:397-415 [template_completion_in_python]. *)

Definition python_compl_src : string :=
  "
                tmp2 = jinja.get_template(""account3"");
                tmp2 = jinja.get_template(""account2"");
                tmp = jinja.get_template(""account"");
                tmp = jinja.anything(""account"");
            "%string.

Definition python_compl_caps : list capture :=
  [mkcap CMethodName (mknode 1 30 42 (mkpt 1 29) (mkpt 1 41) ((mkpt 1 29), (mkpt 1 41)) ((mkpt 1 29), (mkpt 1 41)) None);
   mkcap CTemplateName (mknode 2 43 53 (mkpt 1 42) (mkpt 1 52) ((mkpt 1 42), (mkpt 1 52)) ((mkpt 1 42), (mkpt 1 52)) None);
   mkcap CMethodName (mknode 3 85 97 (mkpt 2 29) (mkpt 2 41) ((mkpt 2 29), (mkpt 2 41)) ((mkpt 2 29), (mkpt 2 41)) None);
   mkcap CTemplateName (mknode 4 98 108 (mkpt 2 42) (mkpt 2 52) ((mkpt 2 42), (mkpt 2 52)) ((mkpt 2 42), (mkpt 2 52)) None);
   mkcap CMethodName (mknode 5 139 151 (mkpt 3 28) (mkpt 3 40) ((mkpt 3 28), (mkpt 3 40)) ((mkpt 3 28), (mkpt 3 40)) None);
   mkcap CTemplateName (mknode 6 152 161 (mkpt 3 41) (mkpt 3 50) ((mkpt 3 41), (mkpt 3 50)) ((mkpt 3 41), (mkpt 3 50)) None)].

Example template_completion_in_python : backend_prefix python_compl_caps python_compl_src (mkpt 3 47) = Some "acco"%string.
Proof. vm_compute. reflexivity. Qed.

(** test_queries.rs:418-439 [jinja_definition_scope]. *)

Definition scope_src : string :=
  "
    {% macro hello_world(parameter) -%}
        <p class=""text-sm font-medium text-green-500""> hello world <p>
        {{ PROJECT_NAME | length }}
        {{ parameter }}
            {% macro primer(parameter2) %}
                {{ parameter }}
            {% endmacro %}
        {% set b = 11 %}
    {% endmacro %}
        "%string.

Definition scope_caps : list capture :=
  [mkcap CDefinition (mknode 1 8 13 (mkpt 1 7) (mkpt 1 12) ((mkpt 1 7), (mkpt 1 12)) ((mkpt 1 7), (mkpt 1 12)) None);
   mkcap CId (mknode 2 14 25 (mkpt 1 13) (mkpt 1 24) ((mkpt 1 13), (mkpt 1 24)) ((mkpt 1 13), (mkpt 1 24)) None);
   mkcap CId (mknode 3 26 35 (mkpt 1 25) (mkpt 1 34) ((mkpt 1 25), (mkpt 1 34)) ((mkpt 1 25), (mkpt 1 34)) None);
   mkcap CScopeEnd (mknode 4 5 7 (mkpt 1 4) (mkpt 1 6) ((mkpt 1 4), (mkpt 1 6)) ((mkpt 1 4), (mkpt 1 6)) None);
   mkcap CScopeStart (mknode 5 37 40 (mkpt 1 36) (mkpt 1 39) ((mkpt 1 36), (mkpt 1 39)) ((mkpt 1 36), (mkpt 1 39)) None);
   mkcap CId (mknode 6 123 135 (mkpt 3 11) (mkpt 3 23) ((mkpt 3 11), (mkpt 3 23)) ((mkpt 3 11), (mkpt 3 23)) None);
   mkcap CId (mknode 8 138 144 (mkpt 3 26) (mkpt 3 32) ((mkpt 3 26), (mkpt 3 32)) ((mkpt 3 26), (mkpt 3 32)) None);
   mkcap CId (mknode 9 159 168 (mkpt 4 11) (mkpt 4 20) ((mkpt 4 11), (mkpt 4 20)) ((mkpt 4 11), (mkpt 4 20)) None);
   mkcap CDefinition (mknode 10 187 192 (mkpt 5 15) (mkpt 5 20) ((mkpt 5 15), (mkpt 5 20)) ((mkpt 5 15), (mkpt 5 20)) None);
   mkcap CId (mknode 11 193 199 (mkpt 5 21) (mkpt 5 27) ((mkpt 5 21), (mkpt 5 27)) ((mkpt 5 21), (mkpt 5 27)) None);
   mkcap CId (mknode 12 200 210 (mkpt 5 28) (mkpt 5 38) ((mkpt 5 28), (mkpt 5 38)) ((mkpt 5 28), (mkpt 5 38)) None);
   mkcap CScopeEnd (mknode 13 184 186 (mkpt 5 12) (mkpt 5 14) ((mkpt 5 12), (mkpt 5 14)) ((mkpt 5 12), (mkpt 5 14)) None);
   mkcap CScopeStart (mknode 14 212 214 (mkpt 5 40) (mkpt 5 42) ((mkpt 5 40), (mkpt 5 42)) ((mkpt 5 40), (mkpt 5 42)) None);
   mkcap CId (mknode 15 234 243 (mkpt 6 19) (mkpt 6 28) ((mkpt 6 19), (mkpt 6 28)) ((mkpt 6 19), (mkpt 6 28)) None);
   mkcap CEndblock (mknode 16 262 270 (mkpt 7 15) (mkpt 7 23) ((mkpt 7 15), (mkpt 7 23)) ((mkpt 7 15), (mkpt 7 23)) None);
   mkcap CScopeEnd (mknode 17 259 261 (mkpt 7 12) (mkpt 7 14) ((mkpt 7 12), (mkpt 7 14)) ((mkpt 7 12), (mkpt 7 14)) None);
   mkcap CScopeStart (mknode 18 271 273 (mkpt 7 24) (mkpt 7 26) ((mkpt 7 24), (mkpt 7 26)) ((mkpt 7 24), (mkpt 7 26)) None);
   mkcap CDefinition (mknode 19 285 288 (mkpt 8 11) (mkpt 8 14) ((mkpt 8 11), (mkpt 8 14)) ((mkpt 8 11), (mkpt 8 14)) None);
   mkcap CId (mknode 20 289 290 (mkpt 8 15) (mkpt 8 16) ((mkpt 8 15), (mkpt 8 16)) ((mkpt 8 15), (mkpt 8 16)) None);
   mkcap CEquals (mknode 21 291 293 (mkpt 8 17) (mkpt 8 19) ((mkpt 8 17), (mkpt 8 19)) ((mkpt 8 17), (mkpt 8 19)) None);
   mkcap CScopeEnd (mknode 23 282 284 (mkpt 8 8) (mkpt 8 10) ((mkpt 8 8), (mkpt 8 10)) ((mkpt 8 8), (mkpt 8 10)) None);
   mkcap CScopeStart (mknode 24 296 298 (mkpt 8 22) (mkpt 8 24) ((mkpt 8 22), (mkpt 8 24)) ((mkpt 8 22), (mkpt 8 24)) None);
   mkcap CEndblock (mknode 25 306 314 (mkpt 9 7) (mkpt 9 15) ((mkpt 9 7), (mkpt 9 15)) ((mkpt 9 7), (mkpt 9 15)) None);
   mkcap CScopeEnd (mknode 26 303 305 (mkpt 9 4) (mkpt 9 6) ((mkpt 9 4), (mkpt 9 6)) ((mkpt 9 4), (mkpt 9 6)) None);
   mkcap CScopeStart (mknode 27 315 317 (mkpt 9 16) (mkpt 9 18) ((mkpt 9 16), (mkpt 9 18)) ((mkpt 9 16), (mkpt 9 18)) None)].

Example jinja_definition_scope : last_scope (definition_query [scope_caps] (mkpt 10 8) pt0 scope_src true) = Some (mkpt 9 4).
Proof. vm_compute. reflexivity. Qed.

(** test_queries.rs:462-475 [test_python_identifiers]. *)

Definition pyid_src : string :=
  "
            [page.text
                 for page in retrieval.result.other.field]
             "%string.

Definition pyid_caps : list capture :=
  [mkcap CIdentifier (mknode 1 14 18 (mkpt 1 13) (mkpt 1 17) ((mkpt 1 13), (mkpt 1 17)) ((mkpt 1 13), (mkpt 1 17)) (Some (mkpt 1 13)));
   mkcap CIdentifier (mknode 2 19 23 (mkpt 1 18) (mkpt 1 22) ((mkpt 1 18), (mkpt 1 22)) ((mkpt 1 18), (mkpt 1 22)) (Some (mkpt 1 13)));
   mkcap CIdentifier (mknode 3 53 62 (mkpt 2 29) (mkpt 2 38) ((mkpt 2 29), (mkpt 2 38)) ((mkpt 2 29), (mkpt 2 38)) (Some (mkpt 2 29)));
   mkcap CIdentifier (mknode 4 63 69 (mkpt 2 39) (mkpt 2 45) ((mkpt 2 39), (mkpt 2 45)) ((mkpt 2 39), (mkpt 2 45)) (Some (mkpt 2 29)));
   mkcap CIdentifier (mknode 5 70 75 (mkpt 2 46) (mkpt 2 51) ((mkpt 2 46), (mkpt 2 51)) ((mkpt 2 46), (mkpt 2 51)) (Some (mkpt 2 29)));
   mkcap CIdentifier (mknode 6 76 81 (mkpt 2 52) (mkpt 2 57) ((mkpt 2 52), (mkpt 2 57)) ((mkpt 2 52), (mkpt 2 57)) (Some (mkpt 2 29)))].

Example test_python_identifiers : count_py (python_identifiers [pyid_caps] pyid_src 0) = Some 2%nat.
Proof. vm_compute. reflexivity. Qed.

(** test_queries.rs:478-496 [test_jinja_test_completion]. *)

Definition is_src : string :=
  "
            {% is  %}

           "%string.

Definition is_caps : list capture :=
  [mkcap CIs (mknode 1 16 18 (mkpt 1 15) (mkpt 1 17) ((mkpt 1 15), (mkpt 1 17)) ((mkpt 1 15), (mkpt 1 17)) None)].

Example test_jinja_test_completion : match objects_query Debug [is_caps] (mkpt 1 18) is_src true with Ok o => obj_completion Debug o (mkpt 1 18) | Panic => Panic end = Ok (Some (CtTest, false)).
Proof. vm_compute. reflexivity. Qed.
