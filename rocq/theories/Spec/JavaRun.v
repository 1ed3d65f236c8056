(* What it means to run the library's Java text: the calls a program makes, and what the model says about them. *)
From Coq Require Import ZArith List Bool String.
From Verif.Model Require Import JavaPrim ByteBuf Checksum Ast Interp Factory Show Heap GenSse Library.
From Verif.Java Require Import Lex Syntax Source Sources Sem CodecTrees Init Program FilesSse.
From Verif.Spec Require Import JavaState.
Import ListNotations.
Open Scope Z_scope.
Open Scope list_scope.

(* the files of /repo/**/src/main/java: text and tree *)
Definition all_files : list (Text.text * file) := codec_files ++ map (fun s => (s_text s, tree s)) message_files.

(* the classes are initialised, and registry, factories and reverse map are as R, W and V say *)
Record running (stat : list (string * jval)) (R : cache) (W : factories) (V : list (string * Z)) : Prop := {
  r_agrees : agrees stat R W V;
  (* suppliers make objects of the library *)
  r_suppliers : forall o k c, lookup_factory W o k = Some c -> assoc c lib_classes <> None }.

(* [k] bounds the iterations of a loop and the depth of calls that are not virtual; it is large enough for everything a buffer can hold *)
Definition enough (k : nat) : Prop := 2 ^ 31 + 4 <= Z.of_nat k.
Definition at_rest (h : heap) (b : bytebuf) (stat : list (string * jval)) : st := {| s_h := h; s_b := b; s_loc := []; s_stat := stat |}.
(* o.m(args) for the object at l, with d stack frames left *)
Definition invoke (pr : printers) (k d l : nat) (m : string) (args : list jval) (s : st) : res jval := vcalls lib_program pr k d m l args s.
(* C.m(args) for a static method, or o.m(args) for the one object o of C *)
Definition invoke_on (pr : printers) (k d : nat) (c m : string) (args : list jval) (s : st) : res jval := run lib_program pr (vcalls lib_program pr k d) k None c m args s.
(* new C() *)
Definition create_new (c : string) (s : st) : res jval := new_object lib_program c s.

(* ---------- calls on registry and factories ---------- *)
Inductive call :=
| CGet (a : string)                                   (* ChecksumServiceFactory.getInstance().getChecksumService(a) *)
| CRegistry (v : jval) (s : service)                  (* ... .registry(v); v is the service s *)
| CRemove (a : string)                                (* ... .removeChecksumService(a) *)
| CClear                                              (* ... .clearAllChecksumService() *)
| CCreate (sc : source_class) (x : hval)              (* XMessageFactory.getInstance().create(x) of the class sc *)
| CRegister (sc : source_class) (x : hval) (c : string)    (* ... .register(x, c::new) *)
| CUnregister (sc : source_class) (x : hval)          (* ... .remove(x) *)
| CSseRegister (clazz : string) (z : Z) (c : string)  (* SseBinary.BodyMessageFactory.getInstance().register(clazz, z, c::new) *)
| CSseType (clazz : string)                           (* ... .getMsgType(clazz) *)
| CFromValue (z : Z).                                 (* SseBinary.BodyMessageFactory.MessageType.fromValue(z) *)

(* the class in Java *)
Definition key_type_of (sc : source_class) : ty := key_type (ftype_of (c_fields (sc_def sc)) (snd (create_of (sc_def sc)))).
Definition java_call (pr : printers) (k d : nat) (x : call) (s : st) : res jval :=
  let on := invoke_on pr k d in
  match x with
  | CGet a => on "ChecksumServiceFactory"%string "getChecksumService"%string [jstr (chars a)] s
  | CRegistry v _ => on "ChecksumServiceFactory"%string "registry"%string [v] s
  | CRemove a => on "ChecksumServiceFactory"%string "removeChecksumService"%string [jstr (chars a)] s
  | CClear => on "ChecksumServiceFactory"%string "clearAllChecksumService"%string [] s
  | CCreate sc x => on (map_place sc) "create"%string [JT (key_type_of sc) x] s
  | CRegister sc x c => on (map_place sc) "register"%string [JT (key_type_of sc) x; JSup c] s
  | CUnregister sc x => on (map_place sc) "remove"%string [JT (key_type_of sc) x] s
  | CSseRegister clazz z c => on "sse.SseBinary.BodyMessageFactory"%string "register"%string [JCls clazz; JT (T1 "Integer") (HInt z); JSup c] s
  | CSseType clazz => on "sse.SseBinary.BodyMessageFactory"%string "getMsgType"%string [JCls clazz] s
  | CFromValue z => on type_place "fromValue"%string [JT (T1 "int") (HInt z)] s
  end.
(* calls javac accepts: services are services, keys are not null (create takes null), and suppliers make objects of the library *)
Definition factory_like (sc : source_class) : Prop := file_class sc /\ creating (sc_def sc) = true /\ is_own (sc_form sc) = false.
Definition sensible (x : call) : Prop :=
  match x with
  | CRegistry v s => is_service v s
  | CCreate sc x => factory_like sc /\ (x = HNull \/ hkey_of x <> None)
  | CRegister sc x c => factory_like sc /\ (exists es, sc_form sc = FEnum es) /\ hkey_of x <> None /\ assoc c lib_classes <> None
  | CUnregister sc x => factory_like sc /\ hkey_of x <> None
  | CSseRegister _ _ c => assoc c lib_classes <> None
  | _ => True
  end.
(* registry, factories, reverse map *)
Definition statics : Type := cache * factories * list (string * Z).
Definition owner_map (W : factories) (o : string) : fmap := match assoc o W with Some M => M | None => [] end.
Definition after (x : call) (w : statics) : statics :=
  let '(R, W, V) := w in
  match x with
  | CRegistry _ s => (snd (registry R s), W, V)
  | CRemove a => (remove_service R a, W, V)
  | CClear => (clear_services R, W, V)
  | CRegister sc x c => match hkey_of x with Some y => (R, on_factory W (c_name (sc_def sc)) (fun M => register M y c), V) | None => w end
  | CUnregister sc x => match hkey_of x with Some y => (R, on_factory W (c_name (sc_def sc)) (fun M => snd (unregister M y)), V) | None => w end
  | CSseRegister clazz z c =>
      let F := sse_register {| body_map := owner_map W sse_owner; reverse_map := V |} clazz z c in (R, on_factory W sse_owner (fun _ => body_map F), reverse_map F)
  | _ => w
  end.
(* what the call returns or throws, and the heap after it *)
Definition answers (x : call) (w : statics) (h h' : heap) (r : exn + jval) : Prop :=
  let '(R, W, V) := w in
  match x with
  | CGet a => h' = h /\ exists v, r = inr v /\ match get_service R a with Some s => is_service v s | None => exists t, v = JT t HNull end
  | CRegistry _ s => h' = h /\ r = inr (JB (fst (registry R s)))
  | CRemove _ | CClear | CRegister _ _ _ | CSseRegister _ _ _ => h' = h /\ r = inr JVoid
  | CCreate sc x =>
      match hkey_of x with
      | Some y => match create (owner_map W (c_name (sc_def sc))) y with
                  | inr c => let '(h1, o) := hnew (env_of lib_classes W R) h c in h' = h1 /\ exists t, r = inr (JT t o)
                  | inl e => h' = h /\ r = inl e
                  end
      | None => h' = h /\ r = inl IAE
      end
  | CUnregister sc x => match hkey_of x with Some y => h' = h /\ r = inr (JB (fst (unregister (owner_map W (c_name (sc_def sc))) y))) | None => False end
  | CSseType clazz => h' = h /\ exists t, r = inr (JT t (match assoc clazz V with Some z => HInt z | None => HNull end))
  | CFromValue z => h' = h /\ r = (match from_value sse_SseBinary_msgtypes z with inr n => inr (JConst type_place n) | inl e => inl e end)
  end.
(* calls one after the other; an exception is caught by the caller *)
Inductive calls (pr : printers) (k d : nat) : list call -> statics -> st -> statics -> st -> Prop :=
| calls_nil w s : calls pr k d [] w s w s
| calls_cons x xs w s r s1 w' s' :
    (java_call pr k d x s = match r with inr v => Ret v s1 | inl e => Exc e s1 end) -> answers x w (s_h s) (s_h s1) r -> s_b s1 = s_b s -> s_loc s1 = s_loc s ->
    calls pr k d xs (after x w) s1 w' s' -> calls pr k d (x :: xs) w s w' s'.
