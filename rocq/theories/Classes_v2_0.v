(** * Object tables of Swagger 2.0, transcribed from pyopenapi/migration/versions/v2_0/objects.py. *)
From Coq Require Import String List.
From Verif Require Import PyVal Obj.
Import ListNotations.
Open Scope string_scope.

(** class Reference -- pyopenapi/migration/versions/v2_0/objects.py:43-52 *)
Definition v20_Reference : classdef := mk_class
  [mk_field "$ref" false JNull false false]
  []
  []
  [("ref", "$ref")]
  [].

(** class XMLObject -- pyopenapi/migration/versions/v2_0/objects.py:55-64 *)
Definition v20_XMLObject : classdef := mk_class
  [fld "name"; fld "namespace"; fld "prefix"; fld "attribute"; fld "wrapped"]
  []
  []
  []
  [].

(** class ExternalDocumentation -- pyopenapi/migration/versions/v2_0/objects.py:67-74 *)
Definition v20_ExternalDocumentation : classdef := mk_class
  [fld "description"; fld "url"]
  []
  []
  []
  [].

(** class Tag -- pyopenapi/migration/versions/v2_0/objects.py:77-91 *)
Definition v20_Tag : classdef := mk_class
  [fld "name"; fld "description"]
  [mk_child "externalDocs" (BCls "ExternalDocumentation") false]
  []
  []
  [].

(** class Items -- pyopenapi/migration/versions/v2_0/objects.py:130-140; inherits BaseSchema; attached at 143 *)
Definition v20_Items : classdef := mk_class
  [mk_field "collectionFormat" false (JStr "csv") false true; fld "type"; fld "format"; fld "default"; fld "maximum"; fld "exclusiveMaximum"; fld "minimum"; fld "exclusiveMinimum"; fld "maxLength"; fld "minLength"; fld "maxItems"; fld "minItems"; fld "multipleOf"; fld "enum"; fld "pattern"; fld "uniqueItems"]
  [mk_child "items" (BCls "Items") false]
  []
  []
  [].

(** class Schema -- pyopenapi/migration/versions/v2_0/objects.py:146-175; inherits BaseSchema; attached at 180, 181, 182, 183 *)
Definition v20_Schema : classdef := mk_class
  [mk_field "$ref" false JNull false false; fld "maxProperties"; fld "minProperties"; fld "title"; fld "description"; fld "discriminator"; fld "readOnly"; fld "example"; mk_field "required" false (JList []) false true; fld "type"; fld "format"; fld "default"; fld "maximum"; fld "exclusiveMaximum"; fld "minimum"; fld "exclusiveMinimum"; fld "maxLength"; fld "minLength"; fld "maxItems"; fld "minItems"; fld "multipleOf"; fld "enum"; fld "pattern"; fld "uniqueItems"]
  [mk_child "xml" (BCls "XMLObject") false; mk_child "externalDocs" (BCls "ExternalDocumentation") false; mk_child "items" (BCls "Schema") false; mk_child "allOf" (BListOf (BCls "Schema")) false; mk_child "properties" (BMapOf (BCls "Schema")) false; mk_child "additionalProperties" (BBoolElse (BCls "Schema")) false]
  []
  [("ref", "$ref"); ("max_properties", "maxProperties"); ("min_properties", "minProperties"); ("read_only", "readOnly"); ("external_docs", "externalDocs"); ("all_of", "allOf"); ("additional_properties", "additionalProperties")]
  [].

(** class Contact -- pyopenapi/migration/versions/v2_0/objects.py:187-194 *)
Definition v20_Contact : classdef := mk_class
  [fld "name"; fld "url"; fld "email"]
  []
  []
  []
  [].

(** class License -- pyopenapi/migration/versions/v2_0/objects.py:197-203 *)
Definition v20_License : classdef := mk_class
  [fld "name"; fld "url"]
  []
  []
  []
  [].

(** class Info -- pyopenapi/migration/versions/v2_0/objects.py:206-223 *)
Definition v20_Info : classdef := mk_class
  [fld "version"; fld "title"; fld "description"; fld "termsOfService"]
  [mk_child "contact" (BCls "Contact") false; mk_child "license" (BCls "License") false]
  []
  [("terms_of_service", "termsOfService")]
  [].

(** class Parameter -- pyopenapi/migration/versions/v2_0/objects.py:226-247; inherits BaseSchema *)
Definition v20_Parameter : classdef := mk_class
  [fld "name"; fld "in"; fld "required"; mk_field "collectionFormat" false (JStr "csv") false true; fld "description"; fld "allowEmptyValue"; fld "type"; fld "format"; fld "default"; fld "maximum"; fld "exclusiveMaximum"; fld "minimum"; fld "exclusiveMinimum"; fld "maxLength"; fld "minLength"; fld "maxItems"; fld "minItems"; fld "multipleOf"; fld "enum"; fld "pattern"; fld "uniqueItems"]
  [mk_child "schema" (BCls "Schema") false; mk_child "items" (BCls "Items") false]
  []
  [("in_", "in"); ("collection_format", "collectionFormat"); ("allow_empty_value", "allowEmptyValue")]
  [].

(** class Header -- pyopenapi/migration/versions/v2_0/objects.py:253-267; inherits BaseSchema *)
Definition v20_Header : classdef := mk_class
  [mk_field "collectionFormat" false (JStr "csv") false true; fld "description"; fld "type"; fld "format"; fld "default"; fld "maximum"; fld "exclusiveMaximum"; fld "minimum"; fld "exclusiveMinimum"; fld "maxLength"; fld "minLength"; fld "maxItems"; fld "minItems"; fld "multipleOf"; fld "enum"; fld "pattern"; fld "uniqueItems"]
  [mk_child "items" (BCls "Items") false]
  []
  [("collection_format", "collectionFormat")]
  [].

(** class Response -- pyopenapi/migration/versions/v2_0/objects.py:270-281 *)
Definition v20_Response : classdef := mk_class
  [fld "description"; fld "examples"]
  [mk_child "schema" (BCls "Schema") false; mk_child "headers" (BMapOf (BCls "Header")) false]
  []
  []
  [].

(** class Operation -- pyopenapi/migration/versions/v2_0/objects.py:288-320 *)
Definition v20_Operation : classdef := mk_class
  [fld "operationId"; fld "deprecated"; fld "description"; fld "summary"]
  [mk_child "tags" (BListOf BStr) false; mk_child "consumes" (BListOf BStr) false; mk_child "produces" (BListOf BStr) false; mk_child "schemes" (BListOf BStr) false; mk_child "parameters" (BListOf (BRefElse "Reference" (BCls "Parameter"))) false; mk_child "responses" (BMapOf (BRefElse "Reference" (BCls "Response"))) false; mk_child "security" (BListOf (BMapOf (BListOf BStr))) false; mk_child "externalDocs" (BCls "ExternalDocumentation") false]
  []
  [("operation_id", "operationId"); ("external_docs", "externalDocs")]
  [("method", JNull); ("url", JNull); ("path", JNull); ("base_path", JNull); ("cached_schemes", (JList [])); ("cached_consumes", (JList [])); ("cached_produces", (JList [])); ("cached_security", JNull)].

(** class PathItem -- pyopenapi/migration/versions/v2_0/objects.py:323-343 *)
Definition v20_PathItem : classdef := mk_class
  [mk_field "$ref" false JNull false false]
  [mk_child "get" (BCls "Operation") false; mk_child "put" (BCls "Operation") false; mk_child "post" (BCls "Operation") false; mk_child "delete" (BCls "Operation") false; mk_child "options" (BCls "Operation") false; mk_child "head" (BCls "Operation") false; mk_child "patch" (BCls "Operation") false; mk_child "parameters" (BListOf (BRefElse "Reference" (BCls "Parameter"))) false]
  []
  [("ref", "$ref")]
  [].

(** class SecurityScheme -- pyopenapi/migration/versions/v2_0/objects.py:346-364 *)
Definition v20_SecurityScheme : classdef := mk_class
  [fld "type"; fld "description"; fld "name"; fld "in"; fld "flow"; fld "authorizationUrl"; fld "tokenUrl"]
  [mk_child "scopes" (BMapOf BStr) false]
  []
  [("type_", "type"); ("in_", "in")]
  [].

(** class Swagger -- pyopenapi/migration/versions/v2_0/objects.py:367-396 *)
Definition v20_Swagger : classdef := mk_class
  [fld "swagger"; fld "host"; fld "basePath"]
  [mk_child "info" (BCls "Info") false; mk_child "schemes" (BListOf BStr) false; mk_child "consumes" (BListOf BStr) false; mk_child "produces" (BListOf BStr) false; mk_child "paths" (BMapOf (BCls "PathItem")) false; mk_child "definitions" (BMapOf (BCls "Schema")) false; mk_child "parameters" (BMapOf (BCls "Parameter")) false; mk_child "responses" (BMapOf (BCls "Response")) false; mk_child "securityDefinitions" (BMapOf (BCls "SecurityScheme")) false; mk_child "security" (BListOf (BListOf BStr)) false; mk_child "tags" (BListOf (BCls "Tag")) false; mk_child "externalDocs" (BCls "ExternalDocumentation") false]
  []
  [("base_path", "basePath"); ("security_definitions", "securityDefinitions"); ("external_docs", "externalDocs")]
  [].

(** the classes of Swagger 2.0 by name *)
Definition v20_table : ctable :=
  [("Reference", v20_Reference);
   ("XMLObject", v20_XMLObject);
   ("ExternalDocumentation", v20_ExternalDocumentation);
   ("Tag", v20_Tag);
   ("Items", v20_Items);
   ("Schema", v20_Schema);
   ("Contact", v20_Contact);
   ("License", v20_License);
   ("Info", v20_Info);
   ("Parameter", v20_Parameter);
   ("Header", v20_Header);
   ("Response", v20_Response);
   ("Operation", v20_Operation);
   ("PathItem", v20_PathItem);
   ("SecurityScheme", v20_SecurityScheme);
   ("Swagger", v20_Swagger)].
