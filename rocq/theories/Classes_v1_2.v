(** * Object tables of Swagger 1.2, transcribed from pyopenapi/migration/versions/v1_2/objects.py. *)
From Coq Require Import String List.
From Verif Require Import PyVal Obj.
Import ListNotations.
Open Scope string_scope.

(** class Items -- pyopenapi/migration/versions/v1_2/objects.py:12-25 *)
Definition v12_Items : classdef := mk_class
  [fld "$ref"; fld "type"; fld "format"]
  []
  []
  [("ref", "$ref"); ("type_", "type"); ("format_", "format")]
  [].

(** class DataTypeObj -- pyopenapi/migration/versions/v1_2/objects.py:28-52 *)
Definition v12_DataTypeObj : classdef := mk_class
  [fld "type"; fld "$ref"; fld "format"; fld "defaultValue"; fld "enum"; fld "minimum"; fld "maximum"; fld "uniqueItems"]
  [mk_child "items" (BCls "Items") false]
  []
  [("type_", "type"); ("ref", "$ref"); ("format_", "format"); ("default_value", "defaultValue"); ("unique_items", "uniqueItems")]
  [].

(** class Scope -- pyopenapi/migration/versions/v1_2/objects.py:55-62 *)
Definition v12_Scope : classdef := mk_class
  [mk_field "scope" true JNull false true; fld "description"]
  []
  []
  []
  [].

(** class LoginEndpoint -- pyopenapi/migration/versions/v1_2/objects.py:65-71 *)
Definition v12_LoginEndpoint : classdef := mk_class
  [mk_field "url" true JNull false true]
  []
  []
  []
  [].

(** class Implicit -- pyopenapi/migration/versions/v1_2/objects.py:74-89 *)
Definition v12_Implicit : classdef := mk_class
  [fld "tokenName"]
  [mk_child "loginEndpoint" (BCls "LoginEndpoint") true]
  []
  [("token_name", "tokenName"); ("login_endpoint", "loginEndpoint")]
  [].

(** class TokenRequestEndpoint -- pyopenapi/migration/versions/v1_2/objects.py:92-105 *)
Definition v12_TokenRequestEndpoint : classdef := mk_class
  [mk_field "url" true JNull false true; fld "clientIdName"; fld "clientSecretName"]
  []
  []
  [("client_id_name", "clientIdName"); ("client_secret_name", "clientSecretName")]
  [].

(** class TokenEndpoint -- pyopenapi/migration/versions/v1_2/objects.py:108-119 *)
Definition v12_TokenEndpoint : classdef := mk_class
  [mk_field "url" true JNull false true; fld "tokenName"]
  []
  []
  [("token_name", "tokenName")]
  [].

(** class AuthorizationCode -- pyopenapi/migration/versions/v1_2/objects.py:122-135 *)
Definition v12_AuthorizationCode : classdef := mk_class
  []
  [mk_child "tokenRequestEndpoint" (BCls "TokenRequestEndpoint") false; mk_child "tokenEndpoint" (BCls "TokenEndpoint") false]
  []
  [("token_request_endpoint", "tokenRequestEndpoint"); ("token_endpoint", "tokenEndpoint")]
  [].

(** class GrantTypes -- pyopenapi/migration/versions/v1_2/objects.py:138-145 *)
Definition v12_GrantTypes : classdef := mk_class
  []
  [mk_child "implicit" (BCls "Implicit") false; mk_child "authorization_code" (BCls "AuthorizationCode") false]
  []
  []
  [].

(** class Authorizations -- pyopenapi/migration/versions/v1_2/objects.py:148-155 *)
Definition v12_Authorizations : classdef := mk_class
  [fld "scope"; fld "description"]
  []
  []
  []
  [].

(** class Authorization -- pyopenapi/migration/versions/v1_2/objects.py:158-177 *)
Definition v12_Authorization : classdef := mk_class
  [fld "type"; fld "passAs"; fld "keyname"]
  [mk_child "scopes" (BListOf (BCls "Scope")) false; mk_child "grantTypes" (BCls "GrantTypes") false]
  []
  [("type_", "type"); ("pass_as", "passAs"); ("grant_types", "grantTypes")]
  [].

(** class ResponseMessage -- pyopenapi/migration/versions/v1_2/objects.py:180-192 *)
Definition v12_ResponseMessage : classdef := mk_class
  [mk_field "code" true JNull false true; mk_field "message" true JNull false true; fld "responseModel"]
  []
  []
  [("response_model", "responseModel")]
  [].

(** class Parameter -- pyopenapi/migration/versions/v1_2/objects.py:195-210; inherits DataTypeObj *)
Definition v12_Parameter : classdef := mk_class
  [mk_field "paramType" true JNull false true; mk_field "name" true JNull false true; fld "description"; fld "required"; fld "allowMultiple"; fld "type"; fld "$ref"; fld "format"; fld "defaultValue"; fld "enum"; fld "minimum"; fld "maximum"; fld "uniqueItems"]
  [mk_child "items" (BCls "Items") false]
  []
  [("param_type", "paramType"); ("allow_multiple", "allowMultiple"); ("type_", "type"); ("ref", "$ref"); ("format_", "format"); ("default_value", "defaultValue"); ("unique_items", "uniqueItems")]
  [].

(** class Operation -- pyopenapi/migration/versions/v1_2/objects.py:213-235; inherits DataTypeObj *)
Definition v12_Operation : classdef := mk_class
  [mk_field "method" true JNull false true; fld "summary"; fld "notes"; mk_field "nickname" true JNull false true; fld "produces"; fld "consumes"; fld "deprecated"; fld "type"; fld "$ref"; fld "format"; fld "defaultValue"; fld "enum"; fld "minimum"; fld "maximum"; fld "uniqueItems"]
  [mk_child "authorizations" (BMapOf (BListOf (BCls "Authorizations"))) false; mk_child "parameters" (BListOf (BCls "Parameter")) false; mk_child "responseMessages" (BListOf (BCls "ResponseMessage")) false; mk_child "items" (BCls "Items") false]
  []
  [("response_messages", "responseMessages"); ("type_", "type"); ("ref", "$ref"); ("format_", "format"); ("default_value", "defaultValue"); ("unique_items", "uniqueItems")]
  [].

(** class Api -- pyopenapi/migration/versions/v1_2/objects.py:238-249 *)
Definition v12_Api : classdef := mk_class
  [mk_field "path" true JNull false true; fld "description"]
  [mk_child "operations" (BListOf (BCls "Operation")) false]
  []
  []
  [].

(** class Property -- pyopenapi/migration/versions/v1_2/objects.py:252-258; inherits DataTypeObj *)
Definition v12_Property : classdef := mk_class
  [fld "description"; fld "type"; fld "$ref"; fld "format"; fld "defaultValue"; fld "enum"; fld "minimum"; fld "maximum"; fld "uniqueItems"]
  [mk_child "items" (BCls "Items") false]
  []
  [("type_", "type"); ("ref", "$ref"); ("format_", "format"); ("default_value", "defaultValue"); ("unique_items", "uniqueItems")]
  [].

(** class Model -- pyopenapi/migration/versions/v1_2/objects.py:261-280 *)
Definition v12_Model : classdef := mk_class
  [mk_field "id" true JNull false true; fld "description"; fld "required"; fld "subTypes"; fld "discriminator"]
  [mk_child "properties" (BMapOf (BCls "Property")) true]
  []
  [("id_", "id"); ("sub_types", "subTypes")]
  [].

(** class ApiDeclaration -- pyopenapi/migration/versions/v1_2/objects.py:283-309 *)
Definition v12_ApiDeclaration : classdef := mk_class
  [mk_field "swaggerVersion" true JNull false true; fld "apiVersion"; mk_field "basePath" true JNull false true; fld "resourcePath"; fld "produces"; fld "consumes"; fld "description"]
  [mk_child "apis" (BListOf (BCls "Api")) true; mk_child "models" (BMapOf (BCls "Model")) false; mk_child "authorizations" (BMapOf (BListOf (BCls "Authorizations"))) false]
  []
  [("swagger_version", "swaggerVersion"); ("api_version", "apiVersion"); ("base_path", "basePath"); ("resource_path", "resourcePath")]
  [].

(** class Info -- pyopenapi/migration/versions/v1_2/objects.py:312-328 *)
Definition v12_Info : classdef := mk_class
  [mk_field "title" true JNull false true; mk_field "description" true JNull false true; fld "termsOfServiceUrl"; fld "contact"; fld "license"; fld "licenseUrl"]
  []
  []
  [("terms_of_service_url", "termsOfServiceUrl"); ("license_url", "licenseUrl")]
  [].

(** class ResourceInListing -- pyopenapi/migration/versions/v1_2/objects.py:331-337 *)
Definition v12_ResourceInListing : classdef := mk_class
  [fld "path"; fld "description"]
  []
  []
  []
  [].

(** class ResourceListing -- pyopenapi/migration/versions/v1_2/objects.py:340-358 *)
Definition v12_ResourceListing : classdef := mk_class
  [mk_field "swaggerVersion" true JNull false true; fld "apiVersion"]
  [mk_child "apis" (BListOf (BCls "ResourceInListing")) false; mk_child "info" (BCls "Info") false; mk_child "authorizations" (BMapOf (BCls "Authorization")) false]
  []
  [("swagger_version", "swaggerVersion"); ("api_version", "apiVersion")]
  [("cached_apis", JNull)].

(** the classes of Swagger 1.2 by name *)
Definition v12_table : ctable :=
  [("Items", v12_Items);
   ("DataTypeObj", v12_DataTypeObj);
   ("Scope", v12_Scope);
   ("LoginEndpoint", v12_LoginEndpoint);
   ("Implicit", v12_Implicit);
   ("TokenRequestEndpoint", v12_TokenRequestEndpoint);
   ("TokenEndpoint", v12_TokenEndpoint);
   ("AuthorizationCode", v12_AuthorizationCode);
   ("GrantTypes", v12_GrantTypes);
   ("Authorizations", v12_Authorizations);
   ("Authorization", v12_Authorization);
   ("ResponseMessage", v12_ResponseMessage);
   ("Parameter", v12_Parameter);
   ("Operation", v12_Operation);
   ("Api", v12_Api);
   ("Property", v12_Property);
   ("Model", v12_Model);
   ("ApiDeclaration", v12_ApiDeclaration);
   ("Info", v12_Info);
   ("ResourceInListing", v12_ResourceInListing);
   ("ResourceListing", v12_ResourceListing)].
