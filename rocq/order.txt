GoStr
Scip
GoTypes
Ast
Packages
Symbols
Document
Lookup
Pass1
Pass2
SpecSymbol
SpecDecl
P_Symbols
P_Pass1
P_Doc
P_Link
ExDecl
SpecLookup
SpecOcc
P_Lookup
P_Pass2
P_Occ
ExOcc
PropSymbols
PropDecl
PropOcc
P_Sort
Regex
Semver
SpecSemver
P_Semver
Paths
ExText
P_Paths
PropPaths
Loader
Index
SpecIndex
PropModule
P_Loader
PropLoader
Env
PropEnv
P_Scope
P_Index
P_Load
PropIndex
ExIndex
Output
PropOutput
Proto
P_Proto
PropProto
P_Fits
Cli
PropCli
PropScreen
Quote
PropQuote
PropAnon
Fingerprint
SpecTypes
P_Utf8
P_QuoteGo
P_Finger
P_Parse
P_Match
PropFinger
Impls
P_Rel
P_Ident
SpecImpl
P_Filter
P_Mem
P_Extract
P_Impl
PropImpl
ExImpl
PropDet
ExDet
PropCross
SpecImport
ExCross
PropNav
PropSwitch
ExNav
PropLocal
ExLocal
Options
PropOptions
Signature
PropSig
SpecTypeText
PropTypeText
PropHover
PropMember
ExMember
Url
PropUrl
PropEscape
Program
PropEnd
ExEnd
PropLoad
P_Valid
SpecText
P_Text
P_Text2
P_Text3
SpecSig
P_SigText
PropText
ExTag
PropReach
ExReach
PropGroup
SpecPrecise
P_Precise
PropPrecise
ExPrecise
PropResult
ExResult
Source
SpecSource
P_Source
PropSource
ExSource
PropUnique
ExUnique
PropBuiltin
Commands
PropCommands
ExCommands
PropImport
ExImport
PropBehind
ExBehind
PropStable
ExStable
PropTypeMember
ExTypeMember
PropPrint
ExPrint
PropRemote
PropEncodable
PropDefined
ExDefined
PropDirective
ExDirective
PropSkip
ExSkip
PropFind
ExFind
P_Once
PropOnce
ExOnce
SpecMove
P_Move
P_Move2
P_Move3
PropMove
ExMove
PropSkipRun
ExSkipRun
PropPart
ExPart
PropPartMethod
ExPartMethod
PropEdit
ExEdit
PropEditRun
ExEditRun
SpecComment
P_Comment
P_Comment2
PropComment
ExComment
PropGrow
ExGrow
PropGrowRun
ExGrowRun
SpecElsewhere
P_Elsewhere
PropElsewhere
ExElsewhere
PropFindCross
ExFindCross
Snapshot
Contract
SnapAlias
SnapEmbedded
SnapGenerallyeric
SnapImpls
SnapInitial
SnapInlinestruct
SnapPackageDocumentation
SnapPr198
SnapPr199
SnapPr201
SnapPr202
SnapPr206
SnapPr211
SnapPr216
SnapPr218
SnapPr222
SnapPr256
SnapReplaceDirectives
SnapSharedtestmodule
SnapSwitches
SnapTestdata
SnapTestspecial
