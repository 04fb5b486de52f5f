(* The classes that the library only writes: Pipeline, HostInfo and the messages
   that contain them, src/pypsrp/complex_objects.py:402-523, 657-779 and
   src/pypsrp/messages.py:264-312, 450-497.

   What their properties compute (ObjModel.v) is here the value of an attribute.
   The properties of HostInfo have no setters, so that the library itself cannot
   read these messages; a reader with this table is one that knows the same
   metadata and keeps what it reads. *)
From Verif Require Import Base Lit NumModel MsgModel XmlModel SerModel SerClasses.
Local Open Scope string_scope.

(* complex_objects.py:442-449 *)
Definition command_list : list String.string :=
  ["System.Collections.Generic.List`1[[System.Management.Automation.PSObject, System.Management.Automation, Version=1.0.0.0, Culture=neutral, PublicKeyToken=31bf3856ad364e35]]"; "System.Object"].
(* ObjectMeta("Obj", object=...) *)
Definition of_class (c : String.string) : meta := Meta KPlain (lit "Obj") None false (Some (lit c)).

Definition send_only_classes : list (list N * cdesc) :=
  map (fun e => (lit (fst e), snd e))
  [ (* complex_objects.py:403-421 *)
    ("Pipeline._ExtraCmds", simple [] [] [("cmds", lm "Cmds" false (of_class "Command") command_list)]);
    (* complex_objects.py:451-464 *)
    ("Pipeline", simple [] []
        [("is_nested", pm "B" "IsNested" false);
         ("_extra_cmds", lm "ExtraCmds" false (of_class "Pipeline._ExtraCmds") command_list);
         ("_cmds", lm "Cmds" false (of_class "Command") command_list);
         ("history", pm "S" "History" false); ("redirect_err_to_out", pm "B" "RedirectShellErrorOutputPipe" false)]);
    (* complex_objects.py:660-711 *)
    ("_HostDefaultData._DictValue", simple [] [] [("value_type", pm "S" "T" false); ("value", pm "*" "V" false)]);
    ("_HostDefaultData._Color", simple [] [] [("type", pm "S" "T" false); ("color", pm "I32" "V" false)]);
    ("_HostDefaultData._Coordinates", simple [] []
        [("type", pm "S" "T" false); ("value", Meta KPlain (lit "ObjDynamic") (Some (lit "V")) false (Some generic_name))]);
    ("_HostDefaultData._Size", simple [] []
        [("type", pm "S" "T" false); ("value", Meta KPlain (lit "ObjDynamic") (Some (lit "V")) false (Some generic_name))]);
    (* complex_objects.py:703-710 *)
    ("_HostDefaultData", simple [] []
        [("_host_dict", Meta (KDict (pm "I32" "Key" false) (object_meta star (Some (lit "Value")))
                               (map lit ["System.Collections.Hashtable"; "System.Object"])) (lit "DCT") (Some (lit "data")) false None)]);
    (* complex_objects.py:742-748 *)
    ("HostInfo", simple [] []
        [("_host_data", cm "_HostDefaultData" "_hostDefaultData" true); ("_is_host_null", pm "B" "_isHostNull" false);
         ("_is_host_ui_null", pm "B" "_isHostUINull" false); ("_is_host_raw_ui_null", pm "B" "_isHostRawUINull" false);
         ("_use_runspace_host", pm "B" "_useRunspaceHost" false)]);
    (* messages.py:286-305 *)
    ("InitRunspacePool", simple [] []
        [("min_runspaces", pm "I32" "MinRunspaces" false); ("max_runspaces", pm "I32" "MaxRunspaces" false);
         ("thread_options", cm "PSThreadOptions" "PSThreadOptions" false);
         ("apartment_state", cm "ApartmentState" "ApartmentState" false); ("host_info", cm "HostInfo" "HostInfo" false);
         ("application_arguments",
            Meta (KDict (object_meta star (Some (lit "Key"))) (object_meta star (Some (lit "Value")))
                    (map lit ["System.Management.Automation.PSPrimitiveDictionary"; "System.Collections.Hashtable"; "System.Object"]))
                 (lit "DCT") (Some (lit "ApplicationArguments")) false None)]);
    (* messages.py:477-486 *)
    ("CreatePipeline", simple [] []
        [("no_input", pm "B" "NoInput" false); ("apartment_state", cm "ApartmentState" "ApartmentState" false);
         ("remote_stream_options", cm "RemoteStreamOptions" "RemoteStreamOptions" false);
         ("add_to_history", pm "B" "AddToHistory" false); ("host_info", cm "HostInfo" "HostInfo" false);
         ("pipeline", cm "Pipeline" "PowerShell" false); ("is_nested", pm "B" "IsNested" false)])].
Definition sending_classes : list (list N * cdesc) := (library_classes ++ send_only_classes)%list.
Definition sending (c : list N) : option cdesc := dict_get str_eqb c sending_classes.
