PyBase
PyInt
Utf
Cp1251
PyFile
Container
Spec_Container
ContainerHex
ContainerToc
ContainerProofs
ContainerMore
ContainerDefects
ContainerBounds
ContainerShift
Times
Paths
Props_Container
ContainerCut
ContainerCut2
ContainerCut3
ContainerCut4
Props_Cut
PyText
PyB64
B64
Brace
JsonText
JsonTextProofs
Spec_Brace
BraceProofs
BraceSim
BraceMain
BraceFile
BraceMore
JsonSim
Props_Brace
Descent
Spec_Descent
DescentProofs
DescentHist
DescentDir
DescentDefects
Props_Descent
Header
Directives
ExtError
CalcOffset
Retry
HeaderProofs
Spec_Misc
MiscProofs
Props_Misc
Json
UpdateDict
Index
Spec_Index
UpdateDictProofs
IndexProofs
IndexLookup
Props_Index
OrgCode
Spec_Code
OrgCodeProofs
OrgCodePaths
OrgCodePack
OrgCodeSplit
Props_Code
EncodeLoop
EncodeLoopProofs
Spec_Encode
EncodeLoopMain
EncodeLoopSpec
Props_Encode
FormCode
Spec_Form
FormProofs
Props_Form
Pipeline
JsonStage
Spec_Stage
Spec_Pipeline
PipelineProofs
PipelineMore
JsonStageProofs
JsonStageBack
JsonStageMain
Props_Pipeline
Props_Stage
Codecs
ObjCode
Spec_Obj
ObjCodeProofs
ObjCodeMain
ObjCodeEdit
Props_Obj
Payload
Spec_Payload
PayloadProofs
PayloadEdit
PayloadTmpl
PayloadPic
Props_Payload
JsonObj
MetaObj
Spec_MetaObj
MetaObjBase
MetaObjPart
MetaObjGood
MetaObjList
MetaObjMain
Classes
ClassesProofs
CanonCheck
Props_MetaObj
Types
Include
Spec_Include
IncludeProofs
IncludeMain
Tree
Spec_Tree
TreeProofs
TreeBuild
Real
Spec_Real
RealProofs
RealMain
RealFiles
Root
Spec_Root
RootCore
RootLists
RootTree
RootVersions
RootSteps
RootDetect
RootOpts
RootConfig
RootProc
RootExt
Props_Include
Props_Tree
RootMain
RootWhole
Props_Root
FormElem
Spec_FormElem
FormElemBase
FormElemProofs
FormElemList
FormElemMain
FormElemDescr
FormElemPlain
FormElemCheck
Props_FormElem
FormJson
FormJsonGood
Form27
Spec_Form27
Form27Proofs
Form27Dec
Form27Main
Props_Form27
Form27Json
Form27Good
Form
Spec_FormObj
FormObjElem
FormObjBody
FormObjMain
FormObjEdit
Props_FormObj
FormReal
Spec_FormReal
FormRealProofs
FormCont
Props_FormReal
OrgForm
Spec_OrgForm
OrgFormProofs
OrgFormMain
OrgFormDocs
OrgFormGood
Props_OrgForm
OrgTree
Spec_OrgTree
OrgTreePaths
OrgTreeProofs
OrgFormAgain
OrgTreeElems
OrgTreeMain
OrgTreeCase
Props_OrgTree
OrgIndex
Spec_OrgIndex
OrgIndexPaths
OrgIndexProofs
OrgIndexMain
Props_OrgIndex
Spec_OrgAgain
OrgAgain
Props_OrgAgain
Props_FormAgain
Spec_CodeEdit
Props_CodeEdit
PipelineItems
Whole
Spec_Whole
WholeProofs
WholeMain
WholeInfo
Props_Whole
Driver
Spec_Driver
DriverProofs
DriverMain
DriverProducts
Props_Driver
Spec_Again
RealSame
Spec_EndToEnd
RootSame
EndToEnd
EndRoot
EndFolders
EndSplit
EndCase
EndCaseOrg
Props_EndToEnd
