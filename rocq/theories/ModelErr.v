(** Error codes and classes: sql/errors/code.go and class.go.  The tables are copied from the source by a
    script, in the order of the source. *)
From Verif Require Import GoBase.

(** A constant block: identifiers and their values.  A switch over constants: identifiers and the text that
    is returned, tried from the top. *)
Definition constant (consts : list (string * string)) (name : string) : string :=
  match find (fun p => String.eqb (fst p) name) consts with Some (_, v) => v | None => "" end.
Definition switch (consts cases : list (string * string)) (otherwise v : string) : string :=
  match find (fun p => String.eqb (constant consts (fst p)) v) cases with Some (_, t) => t | None => otherwise end.

(** class.go:22-108 *)
Definition class_constants : list (string * string) :=
  [("Class00", "00"); ("Class01", "01"); ("Class02", "02"); ("Class03", "03"); ("Class08", "08"); ("Class09", "09");
   ("Class0A", "0A"); ("Class0B", "0B"); ("Class0F", "0F"); ("Class0L", "0L"); ("Class0P", "0P"); ("Class0Z", "0Z");
   ("Class20", "20"); ("Class21", "21"); ("Class22", "22"); ("Class23", "23"); ("Class24", "24"); ("Class25", "25");
   ("Class26", "26"); ("Class27", "27"); ("Class28", "28"); ("Class2B", "2B"); ("Class2D", "2D"); ("Class2F", "2F");
   ("Class34", "34"); ("Class38", "38"); ("Class39", "39"); ("Class3B", "3B"); ("Class3D", "3D"); ("Class3F", "3F");
   ("Class40", "40"); ("Class42", "42"); ("Class44", "44"); ("Class53", "53"); ("Class54", "54"); ("Class55", "55");
   ("Class57", "57"); ("Class58", "58"); ("ClassF0", "F0"); ("ClassHV", "HV"); ("ClassP0", "P0"); ("ClassXX", "XX")].
(** class.go:111-199 *)
Definition class_cases : list (string * string) :=
  [("Class00", "Successful Completion"); ("Class01", "Warning"); ("Class02", "No Data");
   ("Class03", "SQL Statement Not Yet Complete"); ("Class08", "Connection Exception");
   ("Class09", "Triggered Action Exception"); ("Class0A", "Feature Not Supported");
   ("Class0B", "Invalid Transaction Initiation"); ("Class0F", "Locator Exception"); ("Class0L", "Invalid Grantor");
   ("Class0P", "Invalid Role Specification"); ("Class0Z", "Diagnostics Exception"); ("Class20", "Case Not Found");
   ("Class21", "Cardinality Violation"); ("Class22", "Data Exception");
   ("Class23", "Integrity Constraint Violation"); ("Class24", "Invalid Cursor State");
   ("Class25", "Invalid Transaction State"); ("Class26", "Invalid SQL Statement Name");
   ("Class27", "Triggered Data Change Violation"); ("Class28", "Invalid Authorization Specification");
   ("Class2B", "Dependent Privilege Descriptors Still Exist"); ("Class2D", "Invalid Transaction Termination");
   ("Class2F", "SQL Routine Exception"); ("Class34", "Invalid Cursor Name");
   ("Class38", "External Routine Exception"); ("Class39", "External Routine Invocation Exception");
   ("Class3B", "Savepoint Exception"); ("Class3D", "Invalid Catalog Name"); ("Class3F", "Invalid Schema Name");
   ("Class40", "Transaction Rollback"); ("Class42", "Syntax Error or Access Rule Violation");
   ("Class44", "WITH CHECK OPTION Violation"); ("Class53", "Insufficient Resources");
   ("Class54", "Program Limit Exceeded"); ("Class55", "Object Not In Prerequisite State");
   ("Class57", "Operator Intervention"); ("Class58", "System Error"); ("ClassF0", "Configuration File Error");
   ("ClassHV", "Foreign Data Wrapper Error (SQL/MED)"); ("ClassP0", "PL/pgSQL Error");
   ("ClassXX", "Internal Error")].
Definition class_string (c : string) : string := switch class_constants class_cases "Unknown Class" c.

(** code.go:23-284 *)
Definition code_constants : list (string * string) :=
  [("SuccessfulCompletion", "00000"); ("Warning", "01000"); ("DynamicResultSetsReturned", "0100C");
   ("ImplicitZeroBitPadding", "01008"); ("NullValueEliminatedInSetFunction", "01003");
   ("PrivilegeNotGranted", "01007"); ("PrivilegeNotRevoked", "01006");
   ("StringDataRightTruncationWarning", "01004"); ("DeprecatedFeature", "01P01"); ("NoData", "02000");
   ("NoAdditionalDynamicResultSetsReturned", "02001"); ("SQLStatementNotYetComplete", "03000");
   ("ConnectionException", "08000"); ("ConnectionDoesNotExist", "08003"); ("ConnectionFailure", "08006");
   ("SQLClientUnableToEstablishSQLConnection", "08001"); ("SQLServerRejectedEstablishmentOfSQLConnection", "08004");
   ("TransactionResolutionUnknown", "08007"); ("ProtocolViolation", "08P01"); ("TriggeredActionException", "09000");
   ("FeatureNotSupported", "0A000"); ("InvalidTransactionInitiation", "0B000"); ("LocatorException", "0F000");
   ("InvalidLocatorSpecification", "0F001"); ("InvalidGrantor", "0L000"); ("InvalidGrantOperation", "0LP01");
   ("InvalidRoleSpecification", "0P000"); ("DiagnosticsException", "0Z000");
   ("StackedDiagnosticsAccessedWithoutActiveHandler", "0Z002"); ("CaseNotFound", "20000");
   ("CardinalityViolation", "21000"); ("DataException", "22000"); ("ArraySubscriptError", "2202E");
   ("CharacterNotInRepertoire", "22021"); ("DatetimeFieldOverflow", "22008"); ("DivisionByZero", "22012");
   ("ErrorInAssignment", "22005"); ("EscapeCharacterConflict", "2200B"); ("IndicatorOverflow", "22022");
   ("IntervalFieldOverflow", "22015"); ("InvalidArgumentForLogarithm", "2201E");
   ("InvalidArgumentForNtileFunction", "22014"); ("InvalidArgumentForNthValueFunction", "22016");
   ("InvalidArgumentForPowerFunction", "2201F"); ("InvalidArgumentForWidthBucketFunction", "2201G");
   ("InvalidCharacterValueForCast", "22018"); ("InvalidDatetimeFormat", "22007");
   ("InvalidEscapeCharacter", "22019"); ("InvalidEscapeOctet", "2200D"); ("InvalidEscapeSequence", "22025");
   ("NonstandardUseOfEscapeCharacter", "22P06"); ("InvalidIndicatorParameterValue", "22010");
   ("InvalidParameterValue", "22023"); ("InvalidPrecedingOrFollowingSize", "22013");
   ("InvalidRegularExpression", "2201B"); ("InvalidRowCountInLimitClause", "2201W");
   ("InvalidRowCountInResultOffsetClause", "2201X"); ("InvalidTablesampleArgument", "2202H");
   ("InvalidTablesampleRepeat", "2202G"); ("InvalidTimeZoneDisplacementValue", "22009");
   ("InvalidUseOfEscapeCharacter", "2200C"); ("MostSpecificTypeMismatch", "2200G");
   ("NullDataValueNotAllowed", "22004"); ("NullDataValueNoIndicatorParameter", "22002");
   ("NumericValueOutOfRange", "22003"); ("SequenceGeneratorLimitExceeded", "2200H");
   ("StringDataLengthMismatch", "22026"); ("StringDataRightTruncation", "22001"); ("SubstringError", "22011");
   ("TrimError", "22027"); ("UnterminatedCString", "22024"); ("ZeroLengthCharacterString", "2200F");
   ("FloatingPointException", "22P01"); ("InvalidTextRepresentation", "22P02");
   ("InvalidBinaryRepresentation", "22P03"); ("BadCopyFileFormat", "22P04"); ("UntranslatableCharacter", "22P05");
   ("NotAnXMLDocument", "2200L"); ("InvalidXMLDocument", "2200M"); ("InvalidXMLContent", "2200N");
   ("InvalidXMLComment", "2200S"); ("InvalidXMLProcessingInstruction", "2200T");
   ("DuplicateJSONObjectKeyValue", "22030"); ("InvalidArgumentForSQLJSONDatetimeFunction", "22031");
   ("InvalidJSONText", "22032"); ("InvalidSQLJSONSubscript", "22033"); ("MoreThanOneSQLJSONItem", "22034");
   ("NoSQLJSONItem", "22035"); ("NonNumericSQLJSONItem", "22036"); ("NonUniqueKeysInAJSONObject", "22037");
   ("SingletonSQLJSONItemRequired", "22038"); ("SQLJSONArrayNotFound", "22039"); ("SQLJSONMemberNotFound", "2203A");
   ("SQLJSONNumberNotFound", "2203B"); ("SQLJSONObjectNotFound", "2203C"); ("TooManyJSONArrayElements", "2203D");
   ("TooManyJSONObjectMembers", "2203E"); ("SQLJSONScalarRequired", "2203F");
   ("SQLJSONItemCannotBeCastToTargetType", "2203G"); ("IntegrityConstraintViolation", "23000");
   ("RestrictViolation", "23001"); ("NotNullViolation", "23502"); ("ForeignKeyViolation", "23503");
   ("UniqueViolation", "23505"); ("CheckViolation", "23514"); ("ExclusionViolation", "23P01");
   ("InvalidCursorState", "24000"); ("InvalidTransactionState", "25000"); ("ActiveSQLTransaction", "25001");
   ("BranchTransactionAlreadyActive", "25002"); ("HeldCursorRequiresSameIsolationLevel", "25008");
   ("InappropriateAccessModeForBranchTransaction", "25003");
   ("InappropriateIsolationLevelForBranchTransaction", "25004");
   ("NoActiveSQLTransactionForBranchTransaction", "25005"); ("ReadOnlySQLTransaction", "25006");
   ("SchemaAndDataStatementMixingNotSupported", "25007"); ("NoActiveSQLTransaction", "25P01");
   ("InFailedSQLTransaction", "25P02"); ("IdleInTransactionSessionTimeout", "25P03");
   ("TransactionTimeout", "25P04"); ("InvalidSQLStatementName", "26000"); ("TriggeredDataChangeViolation", "27000");
   ("InvalidAuthorizationSpecification", "28000"); ("InvalidPassword", "28P01");
   ("DependentPrivilegeDescriptorsStillExist", "2B000"); ("DependentObjectsStillExist", "2BP01");
   ("InvalidTransactionTermination", "2D000"); ("SQLRoutineException", "2F000");
   ("FunctionExecutedNoReturnStatement", "2F005"); ("SQLRoutineModifyingSQLDataNotPermitted", "2F002");
   ("SQLRoutineProhibitedSQLStatementAttempted", "2F003"); ("SQLRoutineReadingSQLDataNotPermitted", "2F004");
   ("InvalidCursorName", "34000"); ("ExternalRoutineException", "38000"); ("ContainingSQLNotPermitted", "38001");
   ("ExternalRoutineModifyingSQLDataNotPermitted", "38002");
   ("ExternalRoutineProhibitedSQLStatementAttempted", "38003");
   ("ExternalRoutineReadingSQLDataNotPermitted", "38004"); ("ExternalRoutineInvocationException", "39000");
   ("InvalidSQLStateReturned", "39001"); ("NullValueNotAllowed", "39004"); ("TriggerProtocolViolated", "39P01");
   ("SRFProtocolViolated", "39P02"); ("EventTriggerProtocolViolated", "39P03"); ("SavepointException", "3B000");
   ("InvalidSavepointSpecification", "3B001"); ("InvalidCatalogName", "3D000"); ("InvalidSchemaName", "3F000");
   ("TransactionRollback", "40000"); ("TransactionIntegrityConstraintViolation", "40002");
   ("SerializationFailure", "40001"); ("StatementCompletionUnknown", "40003"); ("DeadlockDetected", "40P01");
   ("SyntaxErrorOrAccessRuleViolation", "42000"); ("SyntaxError", "42601"); ("InsufficientPrivilege", "42501");
   ("CannotCoerce", "42846"); ("GroupingError", "42803"); ("WindowingError", "42P20");
   ("InvalidRecursion", "42P19"); ("InvalidForeignKey", "42830"); ("InvalidName", "42602");
   ("NameTooLong", "42622"); ("ReservedName", "42939"); ("DatatypeMismatch", "42804");
   ("IndeterminateDatatype", "42P18"); ("CollationMismatch", "42P21"); ("IndeterminateCollation", "42P22");
   ("WrongObjectType", "42809"); ("GeneratedAlways", "428C9"); ("UndefinedColumn", "42703");
   ("UndefinedFunction", "42883"); ("UndefinedTable", "42P01"); ("UndefinedParameter", "42P02");
   ("UndefinedObject", "42704"); ("DuplicateColumn", "42701"); ("DuplicateCursor", "42P03");
   ("DuplicateDatabase", "42P04"); ("DuplicateFunction", "42723"); ("DuplicatePreparedStatement", "42P05");
   ("DuplicateSchema", "42P06"); ("DuplicateTable", "42P07"); ("DuplicateAlias", "42712");
   ("DuplicateObject", "42710"); ("AmbiguousColumn", "42702"); ("AmbiguousFunction", "42725");
   ("AmbiguousParameter", "42P08"); ("AmbiguousAlias", "42P09"); ("InvalidColumnReference", "42P10");
   ("InvalidColumnDefinition", "42611"); ("InvalidCursorDefinition", "42P11");
   ("InvalidDatabaseDefinition", "42P12"); ("InvalidFunctionDefinition", "42P13");
   ("InvalidPreparedStatementDefinition", "42P14"); ("InvalidSchemaDefinition", "42P15");
   ("InvalidTableDefinition", "42P16"); ("InvalidObjectDefinition", "42P17"); ("WithCheckOptionViolation", "44000");
   ("InsufficientResources", "53000"); ("DiskFull", "53100"); ("OutOfMemory", "53200");
   ("TooManyConnections", "53300"); ("ConfigurationLimitExceeded", "53400"); ("ProgramLimitExceeded", "54000");
   ("StatementTooComplex", "54001"); ("TooManyColumns", "54011"); ("TooManyArguments", "54023");
   ("ObjectNotInPrerequisiteState", "55000"); ("ObjectInUse", "55006"); ("CantChangeRuntimeParam", "55P02");
   ("LockNotAvailable", "55P03"); ("UnsafeNewEnumValueUsage", "55P04"); ("OperatorIntervention", "57000");
   ("QueryCanceled", "57014"); ("AdminShutdown", "57P01"); ("CrashShutdown", "57P02");
   ("CannotConnectNow", "57P03"); ("DatabaseDropped", "57P04"); ("IdleSessionTimeout", "57P05");
   ("SystemError", "58000"); ("IOError", "58030"); ("UndefinedFile", "58P01"); ("DuplicateFile", "58P02");
   ("ConfigFileError", "F0000"); ("LockFileExists", "F0001"); ("FDWError", "HV000");
   ("FDWColumnNameNotFound", "HV005"); ("FDWDynamicParameterValueNeeded", "HV002");
   ("FDWFunctionSequenceError", "HV010"); ("FDWInconsistentDescriptorInformation", "HV021");
   ("FDWInvalidAttributeValue", "HV024"); ("FDWInvalidColumnName", "HV007"); ("FDWInvalidColumnNumber", "HV008");
   ("FDWInvalidDataType", "HV004"); ("FDWInvalidDataTypeDescriptors", "HV006");
   ("FDWInvalidDescriptorFieldIdentifier", "HV091"); ("FDWInvalidHandle", "HV00B");
   ("FDWInvalidOptionIndex", "HV00C"); ("FDWInvalidOptionName", "HV00D"); ("FDWInvalidStringLength", "HV090");
   ("FDWInvalidStringFormat", "HV00A"); ("FDWInvalidUseOfNullPointer", "HV009"); ("FDWTooManyHandles", "HV014");
   ("FDWOutOfMemory", "HV001"); ("FDWNoSchemas", "HV00P"); ("FDWOptionNameNotFound", "HV00J");
   ("FDWReplyHandle", "HV00K"); ("FDWSchemaNotFound", "HV00Q"); ("FDWTableNotFound", "HV00R");
   ("FDWUnableToCreateExecution", "HV00L"); ("FDWUnableToCreateReply", "HV00M");
   ("FDWUnableToEstablishConnection", "HV00N"); ("PLPGSQLError", "P0000"); ("RaiseException", "P0001");
   ("NoDataFound", "P0002"); ("TooManyRows", "P0003"); ("AssertFailure", "P0004"); ("InternalError", "XX000");
   ("DataCorrupted", "XX001"); ("IndexCorrupted", "XX002")].
(** code.go:286-812 *)
Definition code_cases : list (string * string) :=
  [("SuccessfulCompletion", "Successful Completion"); ("Warning", "Warning");
   ("DynamicResultSetsReturned", "Dynamic Result Sets Returned");
   ("ImplicitZeroBitPadding", "Implicit Zero Bit Padding");
   ("NullValueEliminatedInSetFunction", "Null Value Eliminated In Set Function");
   ("PrivilegeNotGranted", "Privilege Not Granted"); ("PrivilegeNotRevoked", "Privilege Not Revoked");
   ("StringDataRightTruncationWarning", "String Data Right Truncation Warning");
   ("DeprecatedFeature", "Deprecated Feature"); ("NoData", "No Data");
   ("NoAdditionalDynamicResultSetsReturned", "No Additional Dynamic Result Sets Returned");
   ("SQLStatementNotYetComplete", "SQL Statement Not Yet Complete");
   ("ConnectionException", "Connection Exception"); ("ConnectionDoesNotExist", "Connection Does Not Exist");
   ("ConnectionFailure", "Connection Failure");
   ("SQLClientUnableToEstablishSQLConnection", "SQL Client Unable To Establish SQL Connection");
   ("SQLServerRejectedEstablishmentOfSQLConnection", "SQL Server Rejected Establishment Of SQL Connection");
   ("TransactionResolutionUnknown", "Transaction Resolution Unknown"); ("ProtocolViolation", "Protocol Violation");
   ("TriggeredActionException", "Triggered Action Exception"); ("FeatureNotSupported", "Feature Not Supported");
   ("InvalidTransactionInitiation", "Invalid Transaction Initiation"); ("LocatorException", "Locator Exception");
   ("InvalidLocatorSpecification", "Invalid Locator Specification"); ("InvalidGrantor", "Invalid Grantor");
   ("InvalidGrantOperation", "Invalid Grant Operation"); ("InvalidRoleSpecification", "Invalid Role Specification");
   ("DiagnosticsException", "Diagnostics Exception");
   ("StackedDiagnosticsAccessedWithoutActiveHandler", "Stacked Diagnostics Accessed Without Active Handler");
   ("CaseNotFound", "Case Not Found"); ("CardinalityViolation", "Cardinality Violation");
   ("DataException", "Data Exception"); ("ArraySubscriptError", "Array Subscript Error");
   ("CharacterNotInRepertoire", "Character Not In Repertoire");
   ("DatetimeFieldOverflow", "Datetime Field Overflow"); ("DivisionByZero", "Division By Zero");
   ("ErrorInAssignment", "Error In Assignment"); ("EscapeCharacterConflict", "Escape Character Conflict");
   ("IndicatorOverflow", "Indicator Overflow"); ("IntervalFieldOverflow", "Interval Field Overflow");
   ("InvalidArgumentForLogarithm", "Invalid Argument For Logarithm");
   ("InvalidArgumentForNtileFunction", "Invalid Argument For Ntile Function");
   ("InvalidArgumentForNthValueFunction", "Invalid Argument For Nth Value Function");
   ("InvalidArgumentForPowerFunction", "Invalid Argument For Power Function");
   ("InvalidArgumentForWidthBucketFunction", "Invalid Argument For Width Bucket Function");
   ("InvalidCharacterValueForCast", "Invalid Character Value For Cast");
   ("InvalidDatetimeFormat", "Invalid Datetime Format"); ("InvalidEscapeCharacter", "Invalid Escape Character");
   ("InvalidEscapeOctet", "Invalid Escape Octet"); ("InvalidEscapeSequence", "Invalid Escape Sequence");
   ("NonstandardUseOfEscapeCharacter", "Nonstandard Use Of Escape Character");
   ("InvalidIndicatorParameterValue", "Invalid Indicator Parameter Value");
   ("InvalidParameterValue", "Invalid Parameter Value");
   ("InvalidPrecedingOrFollowingSize", "Invalid Preceding Or Following Size");
   ("InvalidRegularExpression", "Invalid Regular Expression");
   ("InvalidRowCountInLimitClause", "Invalid Row Count In Limit Clause");
   ("InvalidRowCountInResultOffsetClause", "Invalid Row Count In Result Offset Clause");
   ("InvalidTablesampleArgument", "Invalid Tablesample Argument");
   ("InvalidTablesampleRepeat", "Invalid Tablesample Repeat");
   ("InvalidTimeZoneDisplacementValue", "Invalid Time Zone Displacement Value");
   ("InvalidUseOfEscapeCharacter", "Invalid Use Of Escape Character");
   ("MostSpecificTypeMismatch", "Most Specific Type Mismatch");
   ("NullDataValueNotAllowed", "Null Data Value Not Allowed");
   ("NullDataValueNoIndicatorParameter", "Null Data Value No Indicator Parameter");
   ("NumericValueOutOfRange", "Numeric Value Out Of Range");
   ("SequenceGeneratorLimitExceeded", "Sequence Generator Limit Exceeded");
   ("StringDataLengthMismatch", "String Data Length Mismatch");
   ("StringDataRightTruncation", "String Data Right Truncation"); ("SubstringError", "Substring Error");
   ("TrimError", "Trim Error"); ("UnterminatedCString", "Unterminated C String");
   ("ZeroLengthCharacterString", "Zero Length Character String");
   ("FloatingPointException", "Floating Point Exception");
   ("InvalidTextRepresentation", "Invalid Text Representation");
   ("InvalidBinaryRepresentation", "Invalid Binary Representation"); ("BadCopyFileFormat", "Bad Copy File Format");
   ("UntranslatableCharacter", "Untranslatable Character"); ("NotAnXMLDocument", "Not An XML Document");
   ("InvalidXMLDocument", "Invalid XML Document"); ("InvalidXMLContent", "Invalid XML Content");
   ("InvalidXMLComment", "Invalid XML Comment");
   ("InvalidXMLProcessingInstruction", "Invalid XML Processing Instruction");
   ("DuplicateJSONObjectKeyValue", "Duplicate JSON Object Key Value");
   ("InvalidArgumentForSQLJSONDatetimeFunction", "Invalid Argument For SQL/JSON Datetime Function");
   ("InvalidJSONText", "Invalid JSON Text"); ("InvalidSQLJSONSubscript", "Invalid SQL/JSON Subscript");
   ("MoreThanOneSQLJSONItem", "More Than One SQL/JSON Item"); ("NoSQLJSONItem", "No SQL/JSON Item");
   ("NonNumericSQLJSONItem", "Non Numeric SQL/JSON Item");
   ("NonUniqueKeysInAJSONObject", "Non Unique Keys In A JSON Object");
   ("SingletonSQLJSONItemRequired", "Singleton SQL/JSON Item Required");
   ("SQLJSONArrayNotFound", "SQL/JSON Array Not Found"); ("SQLJSONMemberNotFound", "SQL/JSON Member Not Found");
   ("SQLJSONNumberNotFound", "SQL/JSON Number Not Found"); ("SQLJSONObjectNotFound", "SQL/JSON Object Not Found");
   ("TooManyJSONArrayElements", "Too Many JSON Array Elements");
   ("TooManyJSONObjectMembers", "Too Many JSON Object Members");
   ("SQLJSONScalarRequired", "SQL/JSON Scalar Required");
   ("SQLJSONItemCannotBeCastToTargetType", "SQL/JSON Item Cannot Be Cast To Target Type");
   ("IntegrityConstraintViolation", "Integrity Constraint Violation"); ("RestrictViolation", "Restrict Violation");
   ("NotNullViolation", "Not Null Violation"); ("ForeignKeyViolation", "Foreign Key Violation");
   ("UniqueViolation", "Unique Violation"); ("CheckViolation", "Check Violation");
   ("ExclusionViolation", "Exclusion Violation"); ("InvalidCursorState", "Invalid Cursor State");
   ("InvalidTransactionState", "Invalid Transaction State"); ("ActiveSQLTransaction", "Active SQL Transaction");
   ("BranchTransactionAlreadyActive", "Branch Transaction Already Active");
   ("HeldCursorRequiresSameIsolationLevel", "Held Cursor Requires Same Isolation Level");
   ("InappropriateAccessModeForBranchTransaction", "Inappropriate Access Mode For Branch Transaction");
   ("InappropriateIsolationLevelForBranchTransaction", "Inappropriate Isolation Level For Branch Transaction");
   ("NoActiveSQLTransactionForBranchTransaction", "No Active SQL Transaction For Branch Transaction");
   ("ReadOnlySQLTransaction", "Read Only SQL Transaction");
   ("SchemaAndDataStatementMixingNotSupported", "Schema And Data Statement Mixing Not Supported");
   ("NoActiveSQLTransaction", "No Active SQL Transaction"); ("InFailedSQLTransaction", "In Failed SQL Transaction");
   ("IdleInTransactionSessionTimeout", "Idle In Transaction Session Timeout");
   ("TransactionTimeout", "Transaction Timeout"); ("InvalidSQLStatementName", "Invalid SQL Statement Name");
   ("TriggeredDataChangeViolation", "Triggered Data Change Violation");
   ("InvalidAuthorizationSpecification", "Invalid Authorization Specification");
   ("InvalidPassword", "Invalid Password");
   ("DependentPrivilegeDescriptorsStillExist", "Dependent Privilege Descriptors Still Exist");
   ("DependentObjectsStillExist", "Dependent Objects Still Exist");
   ("InvalidTransactionTermination", "Invalid Transaction Termination");
   ("SQLRoutineException", "SQL Routine Exception");
   ("FunctionExecutedNoReturnStatement", "Function Executed No Return Statement");
   ("SQLRoutineModifyingSQLDataNotPermitted", "SQL Routine Modifying SQL Data Not Permitted");
   ("SQLRoutineProhibitedSQLStatementAttempted", "SQL Routine Prohibited SQL Statement Attempted");
   ("SQLRoutineReadingSQLDataNotPermitted", "SQL Routine Reading SQL Data Not Permitted");
   ("InvalidCursorName", "Invalid Cursor Name"); ("ExternalRoutineException", "External Routine Exception");
   ("ContainingSQLNotPermitted", "Containing SQL Not Permitted");
   ("ExternalRoutineModifyingSQLDataNotPermitted", "External Routine Modifying SQL Data Not Permitted");
   ("ExternalRoutineProhibitedSQLStatementAttempted", "External Routine Prohibited SQL Statement Attempted");
   ("ExternalRoutineReadingSQLDataNotPermitted", "External Routine Reading SQL Data Not Permitted");
   ("ExternalRoutineInvocationException", "External Routine Invocation Exception");
   ("InvalidSQLStateReturned", "Invalid SQL State Returned"); ("NullValueNotAllowed", "Null Value Not Allowed");
   ("TriggerProtocolViolated", "Trigger Protocol Violated"); ("SRFProtocolViolated", "SRF Protocol Violated");
   ("EventTriggerProtocolViolated", "Event Trigger Protocol Violated");
   ("SavepointException", "Savepoint Exception");
   ("InvalidSavepointSpecification", "Invalid Savepoint Specification");
   ("InvalidCatalogName", "Invalid Catalog Name"); ("InvalidSchemaName", "Invalid Schema Name");
   ("TransactionRollback", "Transaction Rollback");
   ("TransactionIntegrityConstraintViolation", "Transaction Integrity Constraint Violation");
   ("SerializationFailure", "Serialization Failure");
   ("StatementCompletionUnknown", "Statement Completion Unknown"); ("DeadlockDetected", "Deadlock Detected");
   ("SyntaxErrorOrAccessRuleViolation", "Syntax Error Or Access Rule Violation"); ("SyntaxError", "Syntax Error");
   ("InsufficientPrivilege", "Insufficient Privilege"); ("CannotCoerce", "Cannot Coerce");
   ("GroupingError", "Grouping Error"); ("WindowingError", "Windowing Error");
   ("InvalidRecursion", "Invalid Recursion"); ("InvalidForeignKey", "Invalid Foreign Key");
   ("InvalidName", "Invalid Name"); ("NameTooLong", "Name Too Long"); ("ReservedName", "Reserved Name");
   ("DatatypeMismatch", "Datatype Mismatch"); ("IndeterminateDatatype", "Indeterminate Datatype");
   ("CollationMismatch", "Collation Mismatch"); ("IndeterminateCollation", "Indeterminate Collation");
   ("WrongObjectType", "Wrong Object Type"); ("GeneratedAlways", "Generated Always");
   ("UndefinedColumn", "Undefined Column"); ("UndefinedFunction", "Undefined Function");
   ("UndefinedTable", "Undefined Table"); ("UndefinedParameter", "Undefined Parameter");
   ("UndefinedObject", "Undefined Object"); ("DuplicateColumn", "Duplicate Column");
   ("DuplicateCursor", "Duplicate Cursor"); ("DuplicateDatabase", "Duplicate Database");
   ("DuplicateFunction", "Duplicate Function"); ("DuplicatePreparedStatement", "Duplicate Prepared Statement");
   ("DuplicateSchema", "Duplicate Schema"); ("DuplicateTable", "Duplicate Table");
   ("DuplicateAlias", "Duplicate Alias"); ("DuplicateObject", "Duplicate Object");
   ("AmbiguousColumn", "Ambiguous Column"); ("AmbiguousFunction", "Ambiguous Function");
   ("AmbiguousParameter", "Ambiguous Parameter"); ("AmbiguousAlias", "Ambiguous Alias");
   ("InvalidColumnReference", "Invalid Column Reference"); ("InvalidColumnDefinition", "Invalid Column Definition");
   ("InvalidCursorDefinition", "Invalid Cursor Definition");
   ("InvalidDatabaseDefinition", "Invalid Database Definition");
   ("InvalidFunctionDefinition", "Invalid Function Definition");
   ("InvalidPreparedStatementDefinition", "Invalid Prepared Statement Definition");
   ("InvalidSchemaDefinition", "Invalid Schema Definition"); ("InvalidTableDefinition", "Invalid Table Definition");
   ("InvalidObjectDefinition", "Invalid Object Definition");
   ("WithCheckOptionViolation", "With Check Option Violation"); ("InsufficientResources", "Insufficient Resources");
   ("DiskFull", "Disk Full"); ("OutOfMemory", "Out Of Memory"); ("TooManyConnections", "Too Many Connections");
   ("ConfigurationLimitExceeded", "Configuration Limit Exceeded");
   ("ProgramLimitExceeded", "Program Limit Exceeded"); ("StatementTooComplex", "Statement Too Complex");
   ("TooManyColumns", "Too Many Columns"); ("TooManyArguments", "Too Many Arguments");
   ("ObjectNotInPrerequisiteState", "Object Not In Prerequisite State"); ("ObjectInUse", "Object In Use");
   ("CantChangeRuntimeParam", "Can't Change Runtime Param"); ("LockNotAvailable", "Lock Not Available");
   ("UnsafeNewEnumValueUsage", "Unsafe New Enum Value Usage"); ("OperatorIntervention", "Operator Intervention");
   ("QueryCanceled", "Query Canceled"); ("AdminShutdown", "Admin Shutdown"); ("CrashShutdown", "Crash Shutdown");
   ("CannotConnectNow", "Cannot Connect Now"); ("DatabaseDropped", "Database Dropped");
   ("IdleSessionTimeout", "Idle Session Timeout"); ("SystemError", "System Error"); ("IOError", "IO Error");
   ("UndefinedFile", "Undefined File"); ("DuplicateFile", "Duplicate File");
   ("ConfigFileError", "Config File Error"); ("LockFileExists", "Lock File Exists"); ("FDWError", "FDW Error");
   ("FDWColumnNameNotFound", "FDW Column Name Not Found");
   ("FDWDynamicParameterValueNeeded", "FDW Dynamic Parameter Value Needed");
   ("FDWFunctionSequenceError", "FDW Function Sequence Error");
   ("FDWInconsistentDescriptorInformation", "FDW Inconsistent Descriptor Information");
   ("FDWInvalidAttributeValue", "FDW Invalid Attribute Value"); ("FDWInvalidColumnName", "FDW Invalid Column Name");
   ("FDWInvalidColumnNumber", "FDW Invalid Column Number"); ("FDWInvalidDataType", "FDW Invalid Data Type");
   ("FDWInvalidDataTypeDescriptors", "FDW Invalid Data Type Descriptors");
   ("FDWInvalidDescriptorFieldIdentifier", "FDW Invalid Descriptor Field Identifier");
   ("FDWInvalidHandle", "FDW Invalid Handle"); ("FDWInvalidOptionIndex", "FDW Invalid Option Index");
   ("FDWInvalidOptionName", "FDW Invalid Option Name"); ("FDWInvalidStringLength", "FDW Invalid String Length");
   ("FDWInvalidStringFormat", "FDW Invalid String Format");
   ("FDWInvalidUseOfNullPointer", "FDW Invalid Use Of Null Pointer"); ("FDWTooManyHandles", "FDW Too Many Handles");
   ("FDWOutOfMemory", "FDW Out Of Memory"); ("FDWNoSchemas", "FDW No Schemas");
   ("FDWOptionNameNotFound", "FDW Option Name Not Found"); ("FDWReplyHandle", "FDW Reply Handle");
   ("FDWSchemaNotFound", "FDW Schema Not Found"); ("FDWTableNotFound", "FDW Table Not Found");
   ("FDWUnableToCreateExecution", "FDW Unable To Create Execution");
   ("FDWUnableToCreateReply", "FDW Unable To Create Reply");
   ("FDWUnableToEstablishConnection", "FDW Unable To Establish Connection"); ("PLPGSQLError", "PL/PGSQL Error");
   ("RaiseException", "Raise Exception"); ("NoDataFound", "No Data Found"); ("TooManyRows", "Too Many Rows");
   ("AssertFailure", "Assert Failure"); ("InternalError", "Internal Error"); ("DataCorrupted", "Data Corrupted");
   ("IndexCorrupted", "Index Corrupted")].
Definition code_string (c : string) : string := switch code_constants code_cases "Unknown Code" c.
